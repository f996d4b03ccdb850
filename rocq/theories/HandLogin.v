(** How a connection becomes a registered user (C24, C43). *)
From Coq Require Import List Ascii String ZArith NArith Bool Lia Arith.
From Coq Require Import Relations RelationClasses.
From Verif Require Import Bytes Match Lists ListsProofs Hash ParseReq State Messages Monad Core Write Info Chan Mode Msg Login Oper Server Dispatch Conn.
From Verif Require Import Rel RelWrite RelInfo RelBase RelChan RelSrv RelInit RelKey RelCmd RelComp WF RelGone Frame Tree Inv2 Inv4 Live Spec Observ Unch HandOper HandPrefix HandLine Frames Attrib HandGain HandUser HandChan HandJoin.
Import ListNotations.
Local Open Scope m_scope.

(** ---- the type of the clients ---- *)
Definition tkeep (c c' : client) : Prop := cl_type c' = cl_type c.
#[export] Instance tkeep_CR : CR tkeep. Proof. split; unfold tkeep; try reflexivity; congruence. Qed.
#[export] Instance tk_meta : CS L_meta tkeep. Proof. intros c c' H. inversion H; subst. match goal with K : cmeta _ _ |- _ => destruct K end. unfold tkeep. auto. Qed.
#[export] Instance tk_intro : CS L_intro tkeep. Proof. intros c c' H. inversion H; subst. reflexivity. Qed.
#[export] Instance tk_id : CS L_id tkeep. Proof. intros c c' H. inversion H; subst. unfold tkeep, set_id; destruct k; reflexivity. Qed.
#[export] Instance tk_idany : CS L_idany tkeep. Proof. intros c c' H. inversion H; subst. unfold tkeep, set_id; destruct k; reflexivity. Qed.
#[export] Instance tk_umode : CS L_umode tkeep. Proof. intros c c' H. inversion H; subst; reflexivity. Qed.
#[export] Instance tk_oper : CS L_oper tkeep. Proof. intros c c' H. inversion H; subst; reflexivity. Qed.
(** SERVER: the types of server links only *)
Definition tserv (c c' : client) : Prop := cl_type c' = cl_type c \/ cl_type c' = T_UNKNOWNSERVER \/ cl_type c' = T_SERVER.
#[export] Instance tserv_CR : CR tserv. Proof. split; unfold tserv; auto. intros a b c H K. destruct K as [E|K]; [rewrite E; exact H|auto]. Qed.
#[export] Instance ts_keep : forall l, CS l tkeep -> CS l tserv | 20. Proof. intros l K c c' H. left. apply K, H. Qed.
#[export] Instance ts_type0 : CS L_type0 tserv. Proof. intros c c' H. inversion H; subst. right. unfold typed. destruct (ctype_eqb t T_SERVER); cbn; tauto. Qed.

Lemma others_tkeep : forall s0, others (also wf (byH tkeep s0)) ["CAP"; "NICK"; "PASS"; "PONG"; "SERVER"; "SERVICE"; "USER"]%string.
Proof. intro s0. others_tac. Qed.
Lemma SERVER_tserv : forall s0 h req, relp (attached h) (also wf (byH tserv s0)) (IRC_SERVER h req).
Proof. intros. apply IRC_SERVER_relp. Qed.

(** ---- what stays as it is while a new user is welcomed ---- *)
Record lkeep (c c' : client) : Prop := mk_lkeep {
  lk_id : cl_id c' = cl_id c; lk_user : cl_user c' = cl_user c; lk_host : cl_host c' = cl_host c;
  lk_cap : cl_cap_pending c' = cl_cap_pending c; lk_conn : cl_conn c' = cl_conn c; lk_type : cl_type c' = cl_type c }.
#[export] Instance lkeep_CR : CR lkeep.
Proof. split; [split; reflexivity| |split; reflexivity]. intros a b c [] []. split; congruence. Qed.
#[export] Instance lk_away : CS L_away lkeep. Proof. intros c c' H. inversion H; subst. match goal with K : caway _ _ |- _ => destruct K as [[] ? ? ?] end. split; auto. Qed.
#[export] Instance lk_umode : CS L_umode lkeep. Proof. intros c c' H. inversion H; subst; split; reflexivity. Qed.
#[export] Instance lk_oper : CS L_oper lkeep. Proof. intros c c' H. inversion H; subst; split; reflexivity. Qed.
(** the bans, the passwords and the cookies *)
Definition lx0 (s0 s : state) : Prop :=
  s_glines s = s_glines s0 /\ s_klines s = s_klines s0 /\
  forall i cn, assoc i (s_conns s) = Some cn -> exists cn0, assoc i (s_conns s0) = Some cn0 /\ co_pwd cn = co_pwd cn0 /\ co_auth_ping cn = co_auth_ping cn0.
Lemma lx0_refl : forall s, lx0 s s. Proof. intro s. split; [|split]; eauto. Qed.
Lemma lx0_same : forall s0 s s', s_glines s' = s_glines s -> s_klines s' = s_klines s -> s_conns s' = s_conns s -> lx0 s0 s -> lx0 s0 s'.
Proof. intros s0 s s' E1 E2 E3 (A & B' & C). split; [congruence|]. split; [congruence|]. intros i cn H. rewrite E3 in H. eauto. Qed.
Lemma lx0_con : forall s0 s i f, (forall c, co_pwd (f c) = co_pwd c /\ co_auth_ping (f c) = co_auth_ping c) -> lx0 s0 s -> lx0 s0 (set_con i f s).
Proof.
  intros s0 s i f F (A & B' & C). split; [exact A|]. split; [exact B'|]. intros j cn H. unfold set_con in H. cbn [s_conns set_s_conns] in H. rewrite assoc_aupd in H. destruct (i =? j); [|eauto].
  destruct (assoc j (s_conns s)) as [c|] eqn:E; [|discriminate]. cbn in H. injection H as <-. destruct (F c) as [F1 F2]. rewrite F1, F2. eauto.
Qed.
Lemma lx0_wstep : forall s0 s s', wstep s s' -> lx0 s0 s -> lx0 s0 s'.
Proof.
  intros s0 s s' H. destruct H.
  - apply lx0_same; reflexivity.
  - apply lx0_con. intro c. match goal with K : forall _, cminor _ _ |- _ => destruct (K c) end. auto.
  - intros (A & B' & C). split; [exact A|]. split; [exact B'|]. intros j cn Hc. cbn [s_conns set_s_conns] in Hc. rewrite assoc_map in Hc. destruct (assoc j (s_conns s)) as [c|] eqn:E; [|discriminate]. cbn in Hc. injection Hc as <-.
    destruct (C _ _ E) as (c0 & H0 & H1). exists c0. auto.
  - apply lx0_con. intro c. auto.
  - apply lx0_same; reflexivity.
Qed.
#[export] Instance lx0_wr : forall s0, WrSub (also wf (lx0 s0)).
Proof. intro s0. apply also_wr; [exact _|]. intros s s' H _. apply lx0_wstep. exact H. Qed.
Definition login_lab (l : lab) : bool := match l with
  | L_create | L_addmb | L_delmb | L_delchan | L_mbmode | L_chadd | L_check | L_useinv | L_umode | L_oper | L_chdel | L_key | L_limit | L_lists | L_away | L_addinv | L_type | L_id | L_meta => true | _ => false end.
Lemma lx0_step : forall s0 l s s', login_lab l = true -> wf s -> pstep l s s' -> lx0 s0 s -> lx0 s0 s'.
Proof.
  intros s0 l s s' T W H. destruct l; try discriminate T; try (inversion H; subst; apply lx0_same; reflexivity); try (inversion H; subst; apply lx0_same; unfold set_chan, if_odd; ifs; reflexivity).
  - apply type_eq in H. destruct H as (h & c & t & tok & a & b & _ & _ & _ & ->). apply lx0_same; stcbn; ifs; reflexivity.
  - apply create_eq in H. destruct H as (n & h & c & _ & _ & _ & ->). apply lx0_same; stcbn; ifs; reflexivity.
  - inversion H; subst. match goal with K : _ = Ok _ _ |- _ => apply addmb_eq in K; destruct K as (c & cc & _ & _ & ->) end. apply lx0_same; stcbn; ifs; reflexivity.
Qed.
Lemma lx0_ps : forall s0 l, login_lab l = true -> PS l (pres wf) -> PS l (also wf (lx0 s0)).
Proof. intros s0 l T P s s' H W. split; [exact (P s s' H W)|]. eapply lx0_step; eauto. Qed.
#[export] Hint Extern 1 (PS _ (also wf (lx0 _))) => (apply lx0_ps; [reflexivity|exact _]) : typeclass_instances.

(** ---- Login_User ---- *)
Record welcomed (s : state) (i : connid) (d : client) : Prop := mk_welcomed {
  w_conn : cl_conn d = Some i;
  w_con : forall cn, assoc i (s_conns s) = Some cn -> (cf_authping (s_conf s) = true -> co_auth_ping cn = 0%Z) /\ given_password cn = cf_serverpwd (s_conf s);
  w_cap : cl_cap_pending d = false;
  w_ban : forall e, In e (s_glines s ++ s_klines s) -> MatchCaseInsensitive (le_mask e) (mask_of d (cl_host d)) = false }.
(** every client keeps its type, except [h], for which [Q] allows a change *)
Definition moved (Q : ctype -> ctype -> Prop) (h : handle) (i : connid) (s s' : state) : Prop := s_next s <= s_next s' /\
  forall j d', j < s_next s -> assoc j (s_heap s') = Some d' -> exists d, assoc j (s_heap s) = Some d /\
  (cl_type d' = cl_type d \/ (j = h /\ Q (cl_type d) (cl_type d') /\ (cl_type d' = T_USER -> welcomed s' i d'))).
Lemma tk_moved : forall Q h i s s', wf s -> also wf (byH tkeep s) s s' -> moved Q h i s s'.
Proof.
  intros Q h i s s' W F. destruct (F W) as [_ F1]. destruct (F1 byH_refl) as (_ & F0 & F2). split; auto. intros j d' L A. destruct (F2 j d') as (d0 & B0 & K); auto. exists d0. auto.
Qed.
Lemma moved_after : forall (Q : ctype -> ctype -> Prop) h i s s1 s', wf s -> also wf (byH tkeep s) s s1 -> moved Q h i s1 s' -> moved Q h i s s'.
Proof.
  intros Q h i s s1 s' W F [M1 M2]. destruct (F W) as [_ F1]. destruct (F1 byH_refl) as (_ & F0 & F2). split; [lia|]. intros j d' L A.
  destruct (M2 j d') as (d1 & B1 & K); auto; [lia|]. destruct (F2 j d1) as (d & B0 & K0); auto. exists d. split; auto. unfold tkeep in K0. rewrite <- K0. exact K.
Qed.
Lemma moved_imp : forall (Q Q' : ctype -> ctype -> Prop) h i s s' c, assoc h (s_heap s) = Some c -> (forall t', Q (cl_type c) t' -> Q' (cl_type c) t') -> moved Q h i s s' -> moved Q' h i s s'.
Proof.
  intros Q Q' h i s s' c A I [M1 M2]. split; auto. intros j d' L A'. destruct (M2 j d' L A') as (d & B0 & [K|(-> & K1 & K2)]); exists d; split; auto. right. rewrite A in B0. injection B0 as <-. auto.
Qed.
Lemma CheckReason_none : forall l mc m l', Lists_CheckReason l mc m = (None, l') -> l' = l /\ forall e, In e l -> MatchCaseInsensitive (le_mask e) m = false.
Proof.
  induction l as [|e l IH]; intros mc m l' H; cbn [Lists_CheckReason] in H. { injection H as <-. split; auto. intros e []. }
  destruct (le_match e mc m) eqn:E; [discriminate H|]. destruct (Lists_CheckReason l mc m) as [r l1] eqn:E1. injection H as -> <-. destruct (IH _ _ _ E1) as [-> K]. split; auto.
  intros x [<-|I]; auto. unfold le_match in E. apply orb_false_iff in E. tauto.
Qed.
Lemma class_eta : forall cl s, (match cl with CLASS_GLINE => set_s_glines | CLASS_KLINE => set_s_klines end) ((match cl with CLASS_GLINE => s_glines | CLASS_KLINE => s_klines end) s) s = s.
Proof. intros [] []; reflexivity. Qed.
Lemma Member_none : forall cl h s s' c, assoc h (s_heap s) = Some c -> cl_type c <> T_SERVER -> Class_GetMemberReason cl h s = Ok None s' ->
  wr s s' /\ forall e, In e ((match cl with CLASS_GLINE => s_glines | CLASS_KLINE => s_klines end) s) -> MatchCaseInsensitive (le_mask e) (mask_of c (cl_host c)) = false.
Proof.
  intros cl h s s' c A T H. unfold Class_GetMemberReason in H. bd H as r s1 H1. apply ret_ok in H. destruct H as [E ->]. destruct r; [discriminate E|]. clear E.
  unfold Check_List in H1. bd H1 as l s2 H2. unfold class_list in H2. rdgets H2.
  set (l := (match cl with CLASS_GLINE => s_glines | CLASS_KLINE => s_klines end) s) in *. destruct l as [|e0 l0] eqn:E. { apply ret_ok in H1. destruct H1 as [_ ->]. split; [apply wr_refl|intros e []]. }
  rewrite <- E in *. bd H1 as mc s2 H2. assert (W : wr s s2) by xlast H2. bd H1 as m s3 H3. unfold Client_Mask in H3. bd H3 as c1 s4 H4. apply cli_ok in H4. destruct H4 as [C1 ->]. apply ret_ok in H3. destruct H3 as [-> ->].
  destruct (wr_cli _ _ _ _ W A) as (x & C2). rewrite C1 in C2. injection C2 as ->. cbn [cl_type set_cl_cloaked] in H1.
  destruct (ctype_eqb (cl_type c) T_SERVER) eqn:TE. { apply ctype_eqb_eq in TE. contradiction. }
  change (mask_of (set_cl_cloaked x c) (cl_host (set_cl_cloaked x c))) with (mask_of c (cl_host c)) in H1.
  destruct (Lists_CheckReason l mc (mask_of c (cl_host c))) as [r l'] eqn:CR0. bd H1 as u s3 H3. apply ret_ok in H1. destruct H1 as [<- ->].
  destruct (CheckReason_none _ _ _ _ CR0) as [-> K]. split; [|exact K].
  unfold set_class in H3. apply modify_ok in H3. assert (s3 = s2); [|congruence]. subst s3. destruct (wr_same _ _ W). subst l. destruct cl; unfold class_list in *.
  - transitivity (set_s_glines (s_glines s2) s2); [congruence|exact (class_eta CLASS_GLINE s2)].
  - transitivity (set_s_klines (s_klines s2) s2); [congruence|exact (class_eta CLASS_KLINE s2)].
Qed.
Lemma ServerBans_ok : forall h s s' c, assoc h (s_heap s) = Some c -> cl_type c <> T_SERVER -> Class_HandleServerBans h s = Ok true s' ->
  wr s s' /\ forall e, In e (s_glines s ++ s_klines s) -> MatchCaseInsensitive (le_mask e) (mask_of c (cl_host c)) = false.
Proof.
  intros h s s' c A T H. unfold Class_HandleServerBans in H. bd H as g s1 H1. bd H as r s2 H2. destruct r. { bd H as u s3 H3. apply ret_ok in H. destruct H; discriminate. }
  apply ret_ok in H. destruct H as [_ ->]. destruct g. { apply ret_ok in H2. destruct H2; discriminate. }
  destruct (Member_none CLASS_GLINE _ _ _ _ A T H1) as [W1 K1]. destruct (wr_cli _ _ _ _ W1 A) as (x & C2).
  destruct (Member_none CLASS_KLINE _ _ _ _ C2 T H2) as [W2 K2]. split; [eapply wr_trans; eauto|].
  intros e I. apply in_app_iff in I. destruct I as [I|I]; [auto|]. destruct (wr_same _ _ W1). apply K2. congruence.
Qed.
Lemma wr_con_back : forall s s' i cn, wr s s' -> assoc i (s_conns s') = Some cn -> exists cn0, assoc i (s_conns s) = Some cn0 /\ co_pwd cn = co_pwd cn0 /\ co_auth_ping cn = co_auth_ping cn0.
Proof.
  intros s s' i cn H A. assert (L : lx0 s s'). { clear A. induction H as [s s' H|s|s s1 s2 H1 IH1 H2 IH2]; [eapply lx0_wstep; eauto; apply lx0_refl|apply lx0_refl|].
    destruct IH1 as (A1 & A2 & A3). destruct IH2 as (B1 & B2 & B3). split; [congruence|]. split; [congruence|]. intros j c C. destruct (B3 _ _ C) as (c0 & C0 & E1 & E2). destruct (A3 _ _ C0) as (c1 & C1 & E3 & E4). exists c1. repeat split; congruence. }
  destruct L as (_ & _ & L). eauto.
Qed.
(** the state right after [Client_SetType] *)
Lemma SetType_others : forall h t s s' j d d', Client_SetType h t s = Ok tt s' -> assoc j (s_heap s) = Some d -> assoc j (s_heap s') = Some d' ->
  (j <> h /\ d' = d) \/ (j = h /\ exists tok, d' = typed t tok d).
Proof.
  intros h t s s' j d d' H A A'. apply Client_SetType_ok in H. destruct H as (c0 & tok & a & b & _ & -> & _).
  replace (s_heap _) with (aupd h (typed t tok) (s_heap s)) in A' by (unfold if_odd; ifs; reflexivity). rewrite assoc_aupd in A'. unfold handle in *. destruct (Nat.eqb_spec h j) as [E|E].
  - subst j. right. rewrite A in A'. cbn in A'. injection A' as <-. eauto.
  - left. split; congruence.
Qed.
Lemma SetType_rest : forall h t s s', Client_SetType h t s = Ok tt s' -> s_conf s' = s_conf s /\ s_conns s' = s_conns s /\ s_glines s' = s_glines s /\ s_klines s' = s_klines s.
Proof. intros h t s s' H. apply Client_SetType_ok in H. destruct H as (c0 & tok & a & b & _ & -> & _). unfold if_odd; ifs; repeat split; reflexivity. Qed.
Lemma typed_type : forall t tok d, cl_type (typed t tok d) = t.
Proof. intros t tok d. unfold typed. destruct (ctype_eqb t T_SERVER); reflexivity. Qed.
Lemma SetType_next : forall h t s s', Client_SetType h t s = Ok tt s' -> s_next s' = s_next s.
Proof. intros h t s s' H. apply Client_SetType_ok in H. destruct H as (c0 & tok & a & b & _ & -> & _). unfold if_odd; ifs; reflexivity. Qed.
Lemma SetType_back : forall h t s s' j d', Client_SetType h t s = Ok tt s' -> assoc j (s_heap s') = Some d' ->
  exists d, assoc j (s_heap s) = Some d /\ ((j <> h /\ d' = d) \/ (j = h /\ exists tok, d' = typed t tok d)).
Proof.
  intros h t s s' j d' H A'. assert (E : exists d, assoc j (s_heap s) = Some d). { pose proof H as H0. apply Client_SetType_ok in H0. destruct H0 as (c0 & tok & a & b & _ & -> & _).
    replace (s_heap _) with (aupd h (typed t tok) (s_heap s)) in A' by (unfold if_odd; ifs; reflexivity). rewrite assoc_aupd in A'. destruct (Nat.eqb h j); [|eauto]. destruct (assoc j (s_heap s)); [eauto|discriminate]. }
  destruct E as [d E]. exists d. split; auto. eapply SetType_others; eauto.
Qed.
Lemma SetType_moved : forall (Q : ctype -> ctype -> Prop) h t i s s' c, Client_SetType h t s = Ok tt s' -> assoc h (s_heap s) = Some c -> Q (cl_type c) t -> t <> T_USER -> moved Q h i s s'.
Proof.
  intros Q h t i s s' c H C L N. split; [rewrite (SetType_next _ _ _ _ H); auto|]. intros j d' Lt A'. destruct (SetType_back _ _ _ _ _ _ H A') as (d & A & K). exists d. split; auto. destruct K as [[E ->]|(-> & tok & ->)]; [left; reflexivity|right].
  rewrite typed_type. rewrite A in C. injection C as ->. split; auto. split; auto. intro; contradiction.
Qed.
Lemma Login_User_moved : forall h i s b s' c, wf s -> assoc h (s_heap s) = Some c -> cl_conn c = Some i -> cfact h login_ok s -> Login_User h s = Ok b s' -> moved (fun _ => login_result) h i s s'.
Proof.
  intros h i s b s' c W A CI LO H. destruct LO as (c9 & A9 & LO). unfold Login_User in H. bd H as o s1 H1. unfold Client_Conn in H1. bd H1 as c1 s2 H2. apply cli_ok in H2. destruct H2 as [C1 ->]. apply ret_ok in H1. destruct H1 as [-> ->].
  rewrite A in C1. injection C1 as <-. rewrite A in A9. injection A9 as <-. rewrite CI in H. bd H as i' s1 H1. apply nonnull_ok in H1. destruct H1 as [E ->]. injection E as <-.
  bd H as ap s1 H1. unfold cf in H1. rdgets H1. bd H as cn s1 H1. apply con_ok in H1. destruct H1 as [-> CN].
  destruct (cf_authping (s_conf s) && negb (co_auth_ping cn =? 0)%Z) eqn:AP. { bd H as u s1 H1. apply ret_ok in H. destruct H as [_ ->]. destruct u. eapply SetType_moved; [exact H1|exact A|left; reflexivity|discriminate]. }
  bd H as c1 s1 H1. apply cli_ok in H1. destruct H1 as [C1 ->]. rewrite A in C1. injection C1 as <-.
  destruct (cl_cap_pending c) eqn:CP. { bd H as u s1 H1. apply ret_ok in H. destruct H as [_ ->]. destruct u. eapply SetType_moved; [exact H1|exact A|right; left; reflexivity|discriminate]. }
  bd H as pwd s1 H1. unfold Conn_Password in H1. bd H1 as cn1 s2 H2. apply con_ok in H2. destruct H2 as [-> CN1]. apply ret_ok in H1. destruct H1 as [-> ->].
  bd H as spwd s1 H1. unfold cf in H1. rdgets H1.
  destruct (beq _ (cf_serverpwd (s_conf s))) eqn:PW; cbn [negb] in H. 2: { apply tk_moved; auto. xlast H. }
  apply beq_eq in PW. unfold Login_User_PostAuth in H. bd H as ok s1 H1. destruct ok; cbn [negb] in H. 2: { apply tk_moved; auto. xstep s1 H1. xlast H. }
  assert (TS : cl_type c <> T_SERVER). { destruct LO as [[L1 _]|[L1 _]]; intro E; rewrite E in L1; discriminate L1. }
  destruct (ServerBans_ok _ _ _ _ A TS H1) as [W1 BAN]. destruct (wr_cli _ _ _ _ W1 A) as (x & A1).
  bd H as u s2 H2. destruct u. unfold Client_Introduce in H2. bd H2 as u s3 H3. destruct u. bd H2 as u s4 H4.
  assert (Wf1 : wf s1) by (exact (wf_wrs _ _ W1 W)).
  assert (Wf3 : wf s3). { revert Wf1. change (pres wf s1 s3). eapply settype_step; [exact H3|exact A1|]. apply login_type_ok; auto. }
  assert (F1 : also wf (byH lkeep s3) s3 s'). { xstep s4 H4. xstep s2 H2. xlast H. }
  assert (F2 : also wf (lx0 s3) s3 s'). { xstep s4 H4. xstep s2 H2. xlast H. }
  destruct (F1 Wf3) as [_ F3]. destruct (F3 byH_refl) as (CF & NX & F4). clear F1 F3. destruct (F2 Wf3) as [_ F5]. destruct (F5 (lx0_refl _)) as (EG & EK & EC). clear F2 F5.
  destruct (SetType_rest _ _ _ _ H3) as (R1 & R2 & R3 & R4). destruct (wr_same _ _ W1).
  pose proof (SetType_next _ _ _ _ H3) as N3. split; [lia|]. intros j d' Lt J'.
  destruct (F4 j d') as (d3 & J3 & [K1 K2 K3 K4 K5 K6]); auto; [lia|]. destruct (SetType_back _ _ _ _ _ _ H3 J3) as (d1 & J1 & K).
  destruct (wr_cli_back _ _ _ _ W1 J1) as (d & y & J & ->). exists d. split; auto. destruct K as [[E ->]|(-> & tok & ->)].
  - left. rewrite K6. reflexivity.
  - right. rewrite K6, typed_type. split; auto. split; [right; right; reflexivity|]. intros _. rewrite A in J. injection J as <-.
    cbn in K1, K2, K3, K4, K5.
    split.
    + rewrite K5. exact CI.
    + intros cn' I'. destruct (EC _ _ I') as (cn0 & I0 & P1 & P2). rewrite R2 in I0. rewrite CF, R1.
      destruct (wr_con_back _ _ _ _ W1 I0) as (cn2 & I2 & P3 & P4). destruct CN as [CN|[CN _]]; [|rewrite CN in I2; discriminate I2]. destruct CN1 as [CN1|[CN1 _]]; [|rewrite CN1 in I2; discriminate I2].
      rewrite CN in I2. injection I2 as <-. rewrite CN in CN1. injection CN1 as <-. unfold given_password. rewrite P1, P3. split; [|congruence]. intro AP0. rewrite P2, P4. rewrite <- w_conf, AP0 in AP. cbn in AP. apply negb_false_iff, Z.eqb_eq in AP. exact AP.
    + rewrite K4. exact CP.
    + unfold mask_of. rewrite K1, K2, K3. intros e I. apply BAN. rewrite <- w_glines, <- w_klines, <- R3, <- R4, <- EG, <- EK. exact I.
Qed.

(** ---- the commands ---- *)
#[local] Hint Extern 0 (rel _ (Conn_Close _ _ _ _)) => apply Conn_Close_rel : rel.
#[local] Hint Resolve me_host me_ipa me_user me_info me_flags me_account me_away me_hops me_token me_cap_pending me_cap_multi : rel.
#[local] Hint Extern 1 (rel _ (upd_cli _ _)) => (apply upd_meta_rel; intro) : rel.
#[local] Hint Extern 2 (rel _ (upd_con _ _)) => (apply upd_cconn_rel; intros []; split; reflexivity) : rel.
Section Commands.
Variables (h : handle) (i : connid) (s : state) (c : client).
Hypotheses (W : wf s) (A : assoc h (s_heap s) = Some c) (CI : cl_conn c = Some i).
Hypothesis T : cl_type c <> T_SERVER /\ cl_type c <> T_UNKNOWNSERVER /\ cl_type c <> T_SERVICE.
Lemma read_type : forall t s1, Client_Type h s = Ok t s1 -> s1 = s /\ t = cl_type c.
Proof. intros t s1 H. apply Client_Type_ok in H. destruct H as (-> & c1 & A1 & ->). rewrite A in A1. injection A1 as ->. auto. Qed.
Lemma settype_wf : forall t s1 s2 c1, wf s1 -> Client_SetType h t s1 = Ok tt s2 -> assoc h (s_heap s1) = Some c1 -> type_ok h t c1 s1 -> wf s2.
Proof. intros t s1 s2 c1 W1 H A1 K. revert W1. change (pres wf s1 s2). eapply settype_step; eauto. Qed.
(** something is done, the type is set, something else is done *)
Lemma via_type : forall (Q : ctype -> ctype -> Prop) t s1 s2 s', also wf (byH tkeep s) s s1 -> Client_SetType h t s1 = Ok tt s2 -> (forall c1, assoc h (s_heap s1) = Some c1 -> cl_type c1 = cl_type c -> wf s2 /\ Q (cl_type c) t) -> t <> T_USER ->
  also wf (byH tkeep s2) s2 s' -> moved Q h i s s'.
Proof.
  intros Q t s1 s2 s' F1 H K N F2. destruct (F1 W) as [W1 G]. pose proof G as G0. destruct (G0 byH_refl) as (_ & L1 & G1).
  pose proof H as H0. apply Client_SetType_ok in H0. destruct H0 as (c1 & _ & _ & _ & A1 & _). destruct (G1 h c1) as (c0 & A0 & E1); auto; [eapply wf_lt; eauto|]. rewrite A in A0. injection A0 as <-.
  destruct (K _ A1 E1) as [W2 Q0]. eapply moved_after; [exact W|exact F1|]. destruct (F2 W2) as [_ G2]. destruct (G2 byH_refl) as (_ & L2 & G3).
  unfold tkeep in E1. rewrite <- E1 in Q0. destruct (SetType_moved Q _ _ i _ _ _ H A1 Q0 N) as [M1 M2].
  split; [lia|]. intros j d' Lt J. destruct (G3 j d') as (d2 & J2 & E2); auto; [lia|]. destruct (M2 j d2 Lt J2) as (d & J1 & M). exists d. split; auto. unfold tkeep in E2. destruct M as [M|(-> & M & _)]; [left; congruence|right].
  rewrite E2. split; auto. split; auto. intro E3. exfalso. destruct (SetType_back _ _ _ _ _ _ H J2) as (d1 & _ & [[X _]|(_ & tok & ->)]); [auto|]. rewrite typed_type in E3. contradiction.
Qed.
Lemma PASS_moved : forall req b s', IRC_PASS h req s = Ok b s' -> moved (fun t t' => t = T_UNKNOWN /\ (t' = T_GOTPASS \/ t' = T_GOTPASS_2813)) h i s s'.
Proof.
  intros req b s' H. pose proof (IRC_PASS_rel (X := pres wf) h req _ _ _ H W) as W'. unfold IRC_PASS in H. bd H as c1 s1 H1. apply cli_ok in H1. destruct H1 as [A1 ->]. rewrite A in A1. injection A1 as <-. rewrite CI in H. cbv zeta in H.
  replace (ctype_eqb (cl_type c) T_UNKNOWNSERVER) with false in H by (symmetry; destruct (ctype_eqb (cl_type c) T_UNKNOWNSERVER) eqn:E; auto; apply ctype_eqb_eq in E; tauto).
  rewrite !orb_false_r in H. destruct (ctype_eqb (cl_type c) T_UNKNOWN) eqn:E.
  2: { cbn [andb orb] in H. apply tk_moved; auto. xlast H. }
  apply ctype_eqb_eq in E. cbn [andb] in H. destruct (_ || _) in H; [|apply tk_moved; auto; xlast H].
  bd H as u s1 H1. bd H as u2 s2 H2. destruct u2. match type of H2 with Client_SetType _ ?t _ = _ => assert (Ht : t = T_GOTPASS_2813 \/ t = T_GOTPASS) by (match goal with |- (if ?b then _ else _) = _ \/ _ => destruct b; auto end) end.
  eapply via_type; [xlast H1|exact H2| | |xlast H].
  - intros c1 A1 E1. split; [|rewrite E; tauto]. eapply settype_wf; [|exact H2|exact A1|]. { revert W. change (pres wf s s1). xlast H1. }
    rewrite E in E1. split; try (intro N; exfalso; destruct Ht as [Ht|Ht]; rewrite Ht in N; discriminate N). + rewrite E1. auto. + rewrite E1. discriminate.
    + rewrite E1. do 5 right. split; [reflexivity|]. intro N. exfalso. destruct Ht as [Ht|Ht]; rewrite Ht in N; discriminate N.
  - destruct Ht as [-> | ->]; discriminate.
Qed.
Lemma tk_cli : forall s1, also wf (byH tkeep s) s s1 -> forall c1, assoc h (s_heap s1) = Some c1 -> cl_type c1 = cl_type c.
Proof. intros s1 F c1 A1. destruct (F W) as [_ G]. destruct (G byH_refl) as (_ & L1 & G1). destruct (G1 h c1) as (c0 & A0 & E1); auto; [eapply wf_lt; eauto|]. rewrite A in A0. injection A0 as <-. exact E1. Qed.
Lemma USER_moved : forall req b s', IRC_USER h req s = Ok b s' ->
  moved (fun t t' => argc req = 4 /\ (t = T_GOTNICK /\ login_result t' \/ (t = T_UNKNOWN \/ t = T_GOTPASS) /\ t' = T_GOTUSER)) h i s s'.
Proof.
  intros req b s' H. unfold IRC_USER in H. bd H as t s1 H1. destruct (read_type _ _ H1) as [-> ->]. clear H1.
  assert (G : (cl_type c = T_GOTNICK \/ cl_type c = T_UNKNOWN \/ cl_type c = T_GOTPASS) -> (if negb (argc req =? 4) then need_more h req
      else if negb (forallb userchar_ok (arg req 0)) then
        o <- Client_Conn h ;; i <- nonnull o ;;
        Conn_Close i None (Some (B "Invalid user name")) true ;;; ret DISCONNECTED
      else
        Client_SetUser h (fst (split1 "@" (arg req 0))) false ;;;
        Client_SetInfo h (match arg req 3 with [] => B "-" | x => x end) ;;;
        if ctype_eqb (cl_type c) T_GOTNICK then Login_User h
        else Client_SetType h T_GOTUSER ;;; ret CONNECTED) s = Ok b s' ->
     moved (fun t t' => argc req = 4 /\ (t = T_GOTNICK /\ login_result t' \/ (t = T_UNKNOWN \/ t = T_GOTPASS) /\ t' = T_GOTUSER)) h i s s').
  { clear H. intros E H. destruct (Nat.eqb_spec (argc req) 4) as [AC|AC]; cbn [negb] in H; [|apply tk_moved; auto; xlast H].
    destruct (negb (forallb userchar_ok (arg req 0))); [apply tk_moved; auto; xlast H|].
    bd H as u s1 H1. bd H as u2 s2 H2. assert (F : also wf (byH tkeep s) s s2). { xstep s1 H1. xlast H2. }
    assert (W2 : wf s2) by (exact (proj1 (F W))). assert (KS : ksame s s2). { xstep s1 H1. xlast H2. }
    destruct (ks_cli _ _ _ _ KS A) as (c2 & A2 & (E1 & _ & E3 & E4 & _)). destruct (ctype_eqb (cl_type c) T_GOTNICK) eqn:TN.
    - apply ctype_eqb_eq in TN. eapply moved_after; [exact W|exact F|]. eapply (moved_imp (fun _ => login_result)); [exact A2| |].
      + intros t' Ht. rewrite E3, TN. auto.
      + eapply Login_User_moved; [exact W2|exact A2| | |exact H]; [rewrite E4; exact CI|]. exists c2. split; auto. left. rewrite E3, TN. split; [reflexivity|discriminate].
    - bd H as u3 s3 H3. apply ret_ok in H. destruct H as [_ ->]. destruct u3. eapply via_type; [exact F|exact H3| |discriminate|].
      + assert (TT : cl_type c = T_UNKNOWN \/ cl_type c = T_GOTPASS). { destruct E as [E|E]; auto. rewrite E in TN. discriminate. }
        intros c1 A1 _. rewrite A2 in A1. injection A1 as <-. split; [|auto]. eapply settype_wf; [exact W2|exact H3|exact A2|].
        split; rewrite ?E3; try discriminate; destruct TT as [-> | ->]; auto; try discriminate; do 5 right; (split; [reflexivity|discriminate]).
      + reflexivity. }
  destruct (cl_type c) eqn:E; try (exfalso; tauto); try (apply G; auto; fail); apply tk_moved; auto; xlast H.
Qed.
Lemma CAP_moved : forall req b s', IRC_CAP h req s = Ok b s' ->
  moved (fun t t' => argc req = 1 /\ caseeq (arg req 0) (B "END") = true /\ t = T_WAITCAPEND /\ login_result t') h i s s'.
Proof.
  intros req b s' H. unfold IRC_CAP in H. cbv zeta in H. destruct (_ && _) in H; [apply tk_moved; auto; xlast H|].
  destruct ((argc req =? 1) && caseeq (arg req 0) (B "END")) eqn:E; [|apply tk_moved; auto; revert H; repeat (match goal with |- context [if ?b then _ else _] => destruct b end); intro H; xlast H].
  apply andb_true_iff in E. destruct E as [E1 E2]. apply Nat.eqb_eq in E1. unfold Handle_CAP_END in H. bd H as t s1 H1. destruct (read_type _ _ H1) as [-> ->]. clear H1.
  destruct (ctype_eqb (cl_type c) T_USER). { apply ret_ok in H. destruct H as [_ ->]. apply tk_moved; auto. reflexivity. }
  bd H as u s1 H1. assert (F : also wf (byH tkeep s) s s1) by xlast H1. destruct (ctype_eqb (cl_type c) T_WAITCAPEND) eqn:TW; [|apply ret_ok in H; destruct H as [_ ->]; apply tk_moved; auto].
  apply ctype_eqb_eq in TW. pose proof (proj1 (F W)) as W1. assert (KS : ksame s s1) by xlast H1. destruct (ks_cli _ _ _ _ KS A) as (c2 & A2 & (K1 & _ & K3 & K4 & _)).
  eapply moved_after; [exact W|exact F|]. eapply (moved_imp (fun _ => login_result)); [exact A2| |].
  - intros t' Ht. rewrite K3. auto.
  - eapply Login_User_moved; [exact W1|exact A2| | |exact H]; [rewrite K4; exact CI|]. exists c2. split; auto. left. rewrite K3, TW. split; [reflexivity|discriminate].
Qed.
Lemma SERVICE_moved : forall Q req b s', IRC_SERVICE h req s = Ok b s' -> moved Q h i s s'.
Proof.
  intros Q req b s' H. unfold IRC_SERVICE in H. bd H as t s1 H1. destruct (read_type _ _ H1) as [-> ->]. clear H1. apply tk_moved; auto. destruct (cl_type c) eqn:E; try (exfalso; tauto); xlast H.
Qed.
Lemma nick_cases : forall new b s', nick_target h h new s = Ok b s' -> cl_type c <> T_USER ->
  wr s s' \/ (nick_ok h new s /\ nick_new h h new s = Ok b s').
Proof.
  intros new b s' H NT. unfold nick_target in H. bd H as id s1 H1.
  assert (E0 : s1 = s /\ id = match cl_id c with [] => B "*" | _ => cl_id c end).
  { unfold Client_ID in H1. bd H1 as c0 s2 H2. rdcli H2. bd H1 as u s3 H3. same H3. bd H1 as w s3 H3. same H3. apply ret_ok in H1. destruct H1 as [-> ->]. split; [reflexivity|]. match goal with K : assoc h (s_heap s) = Some c0 |- _ => rewrite A in K; injection K as <- end. reflexivity. }
  clear H1. destruct E0 as (-> & Hid).
  destruct (beq id new) eqn:Eb; [left; xlast H|]. bd H as ok s1 H1.
  destruct ok; cbn [negb] in H; [|left; apply (wr_trans _ s1); [xlast H1|xlast H]].
  assert (N : s1 = s /\ nick_ok h new s).
  { destruct (caseeq id new) eqn:Ec; cbn [negb] in H1.
    - apply ret_ok in H1. destruct H1 as [_ ->]. split; auto. exists c. split; auto. right. destruct (cl_id c) eqn:E.
      + exfalso. subst id. assert (new = B "*"); [|subst; discriminate Eb].
        destruct new as [|x [|y new]]; try discriminate Ec; [|unfold caseeq in Ec; cbn in Ec; rewrite andb_false_r in Ec; discriminate Ec].
        f_equal. revert Ec. clear. unfold caseeq. destruct x as [[] [] [] [] [] [] [] []]; intro H; try reflexivity; discriminate H.
      + subst id. split; auto. discriminate.
    - apply CheckNick_ok in H1. destruct H1 as (-> & V & Hs). split; auto. exists c. split; auto. left. split; auto. apply search_id_free. auto. }
  destruct N as (-> & N). clear H1. bd H as t s1 H1. destruct (read_type _ _ H1) as [-> ->]. right. split; auto. destruct (cl_type c) eqn:E; auto; exfalso; tauto.
Qed.
Lemma NICK_moved : forall req b s', attached h s -> IRC_NICK h req s = Ok b s' ->
  moved (fun t t' => argc req = 1 /\ (t = T_GOTUSER /\ login_result t' \/ (t = T_UNKNOWN \/ t = T_GOTPASS \/ t = T_GOTNICK) /\ t' = T_GOTNICK)) h i s s'.
Proof.
  intros req b s' At H. unfold IRC_NICK in H. cbv zeta in H. bd H as t s1 H1. destruct (read_type _ _ H1) as [-> ->]. clear H1.
  destruct (Nat.eqb_spec (argc req) 1) as [AC|AC]. 2: { apply tk_moved; auto. destruct (cl_type c) eqn:E; try (exfalso; tauto); xlast H. }
  assert (G : (r <- Client_HasMode h "r" ;; if r then IRC_WriteErrClient h ERR_RESTRICTED_MSG [aID h] else nick_target h h (arg req 0)) s = Ok b s' ->
     cl_type c = T_UNKNOWN \/ cl_type c = T_GOTPASS \/ cl_type c = T_GOTNICK \/ cl_type c = T_GOTUSER -> 
     moved (fun t t' => argc req = 1 /\ (t = T_GOTUSER /\ login_result t' \/ (t = T_UNKNOWN \/ t = T_GOTPASS \/ t = T_GOTNICK) /\ t' = T_GOTNICK)) h i s s').
  { clear H. intros H E. bd H as r s1 H1. same H1. destruct r; [apply tk_moved; auto; xlast H|]. assert (NT : cl_type c <> T_USER) by (destruct E as [-> |[-> |[-> | ->]]]; discriminate).
    destruct (nick_cases _ _ _ H NT) as [Wr|[N HN]]. { apply tk_moved; auto. apply wr_incl; [exact _..|exact Wr]. }
    clear H. rename HN into H. unfold nick_new in H. bd H as u s1 H1. destruct u. assert (F1 : also wf (byH tkeep s) s s1) by (eapply setid_step; eauto).
    assert (N1 : exists c1, assoc h (s_heap s1) = Some c1 /\ cl_type c1 = cl_type c /\ cl_conn c1 = cl_conn c /\ cl_id c1 <> []).
    { pose proof (nick_ok_nonempty _ _ _ N) as Ne. unfold Client_SetID in H1. bd H1 as u sx Hx. unfold cf in Hx. rdgets Hx. apply upd_cli_ok in H1. destruct H1 as (c0 & Hc0 & ->). rewrite A in Hc0. injection Hc0 as <-.
      cbn [s_heap set_s_heap]. rewrite assoc_aupd, Nat.eqb_refl, A. cbn [option_map]. eexists. split; [reflexivity|]. unfold set_id. destruct (cf_cloakusertonick (s_conf s)); cbn [cl_type cl_conn cl_id set_cl_hash set_cl_id set_cl_user set_cl_info]; (split; [reflexivity|split; [reflexivity|]]); apply strlcpy_nonempty; auto; unfold CLIENT_ID_LEN; lia. }
    bd H as ap s2 H2. same H2. bd H as u s2 H2. assert (F2 : also wf (byH tkeep s) s s2). { transitivity s1; auto. xlast H2. } assert (K : ksame s1 s2) by xlast H2. pose proof (proj1 (F2 W)) as W2.
    destruct N1 as (c1 & A1 & T1 & C1 & I1). destruct (ks_cli _ _ _ _ K A1) as (c2 & A2 & (E1 & _ & E3 & E4 & _)).
    bd H as gu s3 H3. apply is_type_ok in H3. destruct H3 as (-> & c3 & Hc3 & ->). rewrite A2 in Hc3. injection Hc3 as <-. rewrite E3, T1 in H.
    destruct (ctype_eqb (cl_type c) T_GOTUSER) eqn:GU.
    - apply ctype_eqb_eq in GU. eapply moved_after; [exact W|exact F2|]. eapply (moved_imp (fun _ => login_result)); [exact A2| |].
      + intros t' Ht. rewrite E3, T1, GU. auto.
      + eapply Login_User_moved; [exact W2|exact A2| | |exact H]; [rewrite E4, C1; exact CI|]. exists c2. split; auto. right. rewrite E3, T1, GU, E1. auto.
    - bd H as u3 s3 H3. apply ret_ok in H. destruct H as [_ ->]. destruct u3. assert (GN : cl_type c = T_UNKNOWN \/ cl_type c = T_GOTPASS \/ cl_type c = T_GOTNICK). { destruct E as [E|[E|[E|E]]]; auto. rewrite E in GU. discriminate. }
      eapply via_type; [exact F2|exact H3| |discriminate|].
      + intros c1' A1' _. split; [|auto]. eapply settype_wf; [exact W2|exact H3|exact A2|]. split; rewrite ?E3, ?T1, ?E1; try discriminate.
        * left. destruct GN as [-> |[-> | ->]]; reflexivity.
        * intro X. rewrite X in GN. destruct GN as [GN|[GN|GN]]; discriminate.
        * do 5 right. split; auto. destruct GN as [-> |[-> | ->]]; reflexivity.
      + reflexivity. }
  destruct (cl_type c) eqn:E; try (exfalso; tauto); try (apply G; auto; fail); apply tk_moved; auto; try xlast H.
  bd H as r s1 H1. same H1. destruct r; [xlast H|]. eapply nick_target_user; [exact H|]. exists c. auto.
Qed.
Lemma PONG_moved : forall req b s', IRC_PONG h req s = Ok b s' ->
  moved (fun t t' => 1 <= argc req /\ t = T_WAITAUTHPING /\ login_result t' /\ exists cn, assoc i (s_conns s) = Some cn /\ co_auth_ping cn <> 0%Z /\ co_auth_ping cn = atol (arg req 0)) h i s s'.
Proof.
  intros req b s' H. unfold IRC_PONG in H. bd H as t s1 H1. destruct (read_type _ _ H1) as [-> ->]. clear H1. cbv zeta in H.
  destruct (Nat.ltb_spec (argc req) 1). { apply tk_moved; auto. destruct (ctype_eqb (cl_type c) T_USER); xlast H. }
  destruct (_ && _) in H; [apply tk_moved; auto; xlast H|].
  replace (ctype_eqb (cl_type c) T_SERVER) with false in H by (symmetry; destruct (ctype_eqb (cl_type c) T_SERVER) eqn:E; auto; apply ctype_eqb_eq in E; tauto).
  rewrite andb_false_r in H. unfold pong_here in H. bd H as o s1 H1. unfold Client_Conn in H1. bd H1 as c1 s2 H2. apply cli_ok in H2. destruct H2 as [C1 ->]. apply ret_ok in H1. destruct H1 as [-> ->]. rewrite A in C1. injection C1 as <-. rewrite CI in H.
  bd H as i' s1 H1. apply nonnull_ok in H1. destruct H1 as [E ->]. injection E as <-. bd H as cn s1 H1. apply con_ok in H1. destruct H1 as [-> CN]. cbv zeta in H. bd H as ok s1 H1.
  destruct (Z.eqb_spec (co_auth_ping cn) 0) as [Z0|Z0]; cbn [negb] in H1. { apply ret_ok in H1. destruct H1 as [-> ->]. apply tk_moved; auto. xlast H. }
  destruct (Z.eqb_spec (co_auth_ping cn) (atol (arg req 0))) as [Z1|Z1]. 2: { apply tk_moved; auto. xstep s1 H1. xlast H. }
  bd H1 as u s2 H2. assert (F : also wf (byH tkeep s) s s2) by xlast H2. pose proof (proj1 (F W)) as W2. assert (KS : ksame s s2) by xlast H2. destruct (ks_cli _ _ _ _ KS A) as (c2 & A2 & (E1 & _ & E3 & E4 & _)).
  bd H1 as w s3 H3. apply is_type_ok in H3. destruct H3 as (-> & c3 & Hc3 & ->). rewrite A2 in Hc3. injection Hc3 as <-. rewrite E3 in H1. unfold whenM in H1.
  destruct (ctype_eqb (cl_type c) T_WAITAUTHPING) eqn:TW. 2: { bd H1 as u1 s3 H3. apply ret_ok in H3. destruct H3 as [_ ->]. apply ret_ok in H1. destruct H1 as [-> ->]. apply tk_moved; auto. transitivity s2; auto. xlast H. }
  apply ctype_eqb_eq in TW. bd H1 as u1 s3 H3. apply ret_ok in H1. destruct H1 as [-> ->]. cbn [negb] in H. unfold void in H3. bd H3 as r s4 H4. apply ret_ok in H3. destruct H3 as [_ ->].
  assert (M : moved (fun _ => login_result) h i s2 s4). { eapply Login_User_moved; [exact W2|exact A2| | |exact H4]; [rewrite E4; exact CI|]. exists c2. split; auto. left. rewrite E3, TW. split; [reflexivity|discriminate]. }
  bd H as u2 s5 H5. same H5. bd H as u3 s5 H5. apply ret_ok in H. destruct H as [_ ->]. unfold Conn_UpdatePing in H5. apply upd_con_ok in H5.
  eapply moved_after; [exact W|exact F|]. destruct M as [M1 M2]. split; [subst s5; exact M1|]. intros j d' Lt J. assert (J0 : assoc j (s_heap s4) = Some d') by (subst s5; exact J). destruct (M2 j d' Lt J0) as (d & JD & MM). exists d. split; auto.
  destruct MM as [MM|(-> & MM & MW)]; [left; exact MM|right]. split; auto. rewrite A2 in JD. injection JD as <-. rewrite E3, TW. split.
  - split; auto. split; auto. split; auto. exists cn. split; auto. destruct CN as [CN|[_ ->]]; auto. exfalso. apply Z0. reflexivity.
  - intro TU. destruct (MW TU) as [B1 B2 B3 B4]. subst s5. split; auto. intros cn' I'. cbn [s_conns set_s_conns] in I'. rewrite assoc_aupd in I'. rewrite Nat.eqb_refl in I'. destruct (assoc i (s_conns s4)) as [cn0|] eqn:I0; [|discriminate I']. cbn in I'. injection I' as <-. exact (B2 _ eq_refl).
Qed.
End Commands.

(** ---- a line ---- *)
Ltac in_cmds := unfold My_Commands; repeat match goal with |- In ?x (?y :: _) => first [constr_eq x y; apply in_eq | apply in_cons] end.
Lemma cmd_of : forall n f ty mi ma p, In (mkCommand n f ty mi ma p) My_Commands -> forall cmd, In cmd My_Commands -> cm_name cmd = n -> cmd = mkCommand n f ty mi ma p.
Proof.
  assert (N : NoDup (map cm_name My_Commands)). { assert (E : nodup string_dec (map cm_name My_Commands) = map cm_name My_Commands) by (vm_compute; reflexivity). rewrite <- E. apply NoDup_nodup. }
  intros n f ty mi ma p I cmd J E. revert N I J. generalize My_Commands. induction l as [|x l IH]; intros N I J; [destruct I|]. cbn [map] in N. inversion N as [|y m N1 N2]; subst. destruct I as [I|I], J as [J|J].
  - congruence.
  - exfalso. apply N1. apply in_map_iff. exists cmd. split; auto. rewrite I. cbn. reflexivity.
  - exfalso. apply N1. rewrite J. apply in_map_iff. eexists. split; [|exact I]. reflexivity.
  - auto.
Qed.
Lemma welcomed_proper : forall s i j d, live s -> undisturbed s -> assoc j (s_heap s) = Some d -> cl_type d = T_USER -> welcomed s i d -> registered_properly s i d.
Proof.
  intros s i j d L U J T [W1 W2 W3 W4]. pose proof (live_itree _ L U) as TR. destruct (tr_h2c _ TR _ _ _ J W1) as (cn & I1 & I2).
  assert (CO : client_of s i j d). { split; [|rewrite lookup_assoc; auto]. exists cn. rewrite lookup_assoc. auto. }
  assert (FM : mask_of d (cl_host d) = full_mask d) by (eapply mask_full; eauto).
  rewrite FM in W4. destruct (W2 _ I1) as [A1 A2]. split; auto.
  - intro AP. exists cn. rewrite lookup_assoc. auto.
  - exists cn. rewrite lookup_assoc. auto.
  - destruct (live_inick _ L U _ _ J) as [Q|[Q|[[Q Q1]|Q]]]; [congruence|rewrite T in Q; discriminate Q| |apply valid_nick_legal; exact Q]. rewrite T in Q1. discriminate Q1.
  - intros e I. apply W4. apply in_app_iff. auto.
  - intros e I. apply W4. apply in_app_iff. auto.
Qed.
Theorem login_line : forall s i h c text b s', live s -> undisturbed s' -> client_of s i h c -> plain_type (cl_type c) -> Parse_Request i text s = Ok b s' ->
  forall j d d', lookup j (s_heap s) = Some d -> lookup j (s_heap s') = Some d' ->
  cl_type d' = cl_type d \/
  (j = h /\ reg_step s i text (cl_type d) (cl_type d') /\ (cl_type d' = T_USER -> registered_properly s' i d')) \/
  ((cl_type c = T_GOTPASS \/ cl_type c = T_GOTPASS_2813) /\ (exists args, says text "SERVER" args) /\ (cl_type d' = T_UNKNOWNSERVER \/ cl_type d' = T_SERVER)).
Proof.
  intros s i h c text b s' L U' C T H j d d' J J'. rewrite lookup_assoc in J, J'. pose proof (live_wf _ L) as W.
  assert (L' : live s') by (eapply V_action; [exact L|eapply A_line; exact H]).
  assert (U : undisturbed s). { eapply undisturbed_incl; [|exact U']. eapply action_grows; eauto. eapply A_line; eauto. }
  assert (F : also wf (byH tkeep s) s s' -> cl_type d' = cl_type d).
  { intro F. destruct (F W) as [_ F1]. destruct (F1 byH_refl) as (_ & _ & F2). destruct (F2 j d') as (d0 & A0 & G); auto. { eapply wf_lt; eauto. } rewrite J in A0. injection A0 as <-. exact G. }
  destruct (line_cases _ _ _ _ _ _ _ C H) as [A|[[Q (req & HN)]|(cmd & req & s1 & R)]].
  - left. apply F. eapply answered_X; [exact _..|exact A].
  - exfalso. destruct T as (T1 & T2 & _). tauto.
  - destruct (cr_prep _ _ _ _ _ _ _ _ _ _ R) as (s2 & W2 & E2).
    pose proof (prepared_X (also wf (byH tkeep s)) _ _ _ _ _ (cr_prep _ _ _ _ _ _ _ _ _ _ R)) as P.
    destruct (existsb (String.eqb (cm_name cmd)) ["CAP"; "NICK"; "PASS"; "PONG"; "SERVER"; "SERVICE"; "USER"]%string) eqn:E.
    2: { left. apply F. transitivity s1; auto. eapply (others_use _ _ cmd); [apply others_tkeep; auto|apply R|exact E|apply R|apply R]. }
    pose proof C as [(cn & C0 & C1) C2]. rewrite lookup_assoc in C0, C2. destruct (wr_cli _ _ _ _ W2 C2) as (x & C3). assert (C4 : assoc h (s_heap s1) = Some (set_cl_cloaked x c)) by (subst s1; exact C3).
    pose proof (proj1 (P W)) as W1. destruct (tr_c2h _ (live_itree _ L U) _ _ C0) as (h' & c' & D1 & D2 & D3). rewrite C1 in D1. injection D1 as <-. rewrite C2 in D2. injection D2 as <-.
    pose proof (cr_run _ _ _ _ _ _ _ _ _ _ R) as RUN. destruct (cr_parse _ _ _ _ _ _ _ _ _ _ R) as (p & PL). pose proof (cr_name _ _ _ _ _ _ _ _ _ _ R) as NM. pose proof (cr_in _ _ _ _ _ _ _ _ _ _ R) as CIN.
    assert (SAY : forall n args, cm_name cmd = n -> rq_args req = args -> says text n args). { intros n args E3 E4. exists p, (rq_command req). rewrite <- E3. split; [rewrite <- E4; exact PL|exact NM]. }
    (* a command that moves [h] only *)
    assert (MV : forall Q : ctype -> ctype -> Prop, moved Q h i s1 s' -> (Q (cl_type c) (cl_type d') -> j = h -> cl_type d' <> cl_type d -> reg_step s i text (cl_type d) (cl_type d')) ->
      cl_type d' = cl_type d \/ (j = h /\ reg_step s i text (cl_type d) (cl_type d') /\ (cl_type d' = T_USER -> registered_properly s' i d')) \/
      ((cl_type c = T_GOTPASS \/ cl_type c = T_GOTPASS_2813) /\ (exists args, says text "SERVER" args) /\ (cl_type d' = T_UNKNOWNSERVER \/ cl_type d' = T_SERVER))).
    { intros Q M K. apply (moved_after _ _ _ _ _ _ W P) in M. destruct M as [M1 M2]. destruct (M2 j d') as (d0 & J0 & M); auto; [eapply wf_lt; eauto|]. rewrite J in J0. injection J0 as <-.
      destruct M as [M|(-> & M & MW)]; [left; exact M|]. destruct (ctype_eqb (cl_type d') (cl_type d)) eqn:TE; [left; apply ctype_eqb_eq; exact TE|]. right. left. rewrite C2 in J. injection J as <-. split; auto.
      split; [apply K; auto; intro X; rewrite X in TE; destruct (cl_type c); discriminate TE|]. intro TU. eapply welcomed_proper; eauto. }
    assert (LEN : forall n, argc req = n -> List.length (rq_args req) = n) by auto.
    cbn [existsb] in E. rewrite !orb_true_iff in E. repeat destruct E as [E|E]; try discriminate E; apply String.eqb_eq in E.
    + rewrite (cmd_of "CAP" IRC_CAP US_ANY 1 (Some 2) 0 ltac:(in_cmds) _ CIN E) in RUN. eapply MV; [eapply CAP_moved; eauto|].
      intros (Q1 & Q2 & Q3 & Q4) -> NE. rewrite C2 in J. injection J as <-. rewrite Q3. unfold arg in Q2. destruct (rq_args req) as [|w [|? ?]] eqn:RA; try discriminate Q1; [unfold argc in Q1; rewrite RA in Q1; discriminate Q1| |unfold argc in Q1; rewrite RA in Q1; discriminate Q1].
      eapply (RS_cap _ _ _ w); auto. apply same_name_iff. exact Q2.
    + rewrite (cmd_of "NICK" IRC_NICK US_ANY 0 None 0 ltac:(in_cmds) _ CIN E) in RUN. eapply MV; [eapply NICK_moved; eauto; apply R|].
      intros (Q1 & Q2) -> NE. rewrite C2 in J. injection J as <-. unfold argc in Q1. destruct (rq_args req) as [|w [|? ?]] eqn:RA; try discriminate Q1. destruct Q2 as [[-> Q2]|[Q2 E4]]; [eapply (RS_nick_last _ _ _ w); auto|].
      rewrite E4. eapply (RS_nick _ _ _ w); auto. destruct Q2 as [Q2|[Q2|Q2]]; auto. rewrite E4, Q2 in NE. congruence.
    + rewrite (cmd_of "PASS" IRC_PASS US_ANY 0 None 0 ltac:(in_cmds) _ CIN E) in RUN. eapply MV; [eapply PASS_moved; eauto|].
      intros (Q1 & Q2) -> NE. rewrite C2 in J. injection J as <-. rewrite Q1. eapply RS_pass; auto.
    + rewrite (cmd_of "PONG" IRC_PONG US_ANY 0 None 0 ltac:(in_cmds) _ CIN E) in RUN. eapply MV; [eapply PONG_moved; eauto|].
      intros (Q1 & Q2 & Q3 & (cn' & Q4 & Q5 & Q6)) -> NE. rewrite C2 in J. injection J as <-. rewrite Q2. unfold arg in Q6. destruct (rq_args req) as [|w r] eqn:RA; [unfold argc in Q1; rewrite RA in Q1; cbn in Q1; lia|].
      assert (Q4' : assoc i (s_conns s2) = Some cn') by (subst s1; exact Q4). destruct (wr_con_back _ _ _ _ W2 Q4') as (cn0 & Q7 & _ & Q8). rewrite C0 in Q7. injection Q7 as <-.
      eapply (RS_pong _ _ _ w r cn); [apply SAY; auto|rewrite lookup_assoc; exact C0|congruence|rewrite <- Q8; exact Q6|exact Q3].
    + rewrite (cmd_of "SERVER" IRC_SERVER US_ANY 0 None 0 ltac:(in_cmds) _ CIN E) in RUN. cbn [cm_fun] in RUN.
      assert (TT : (cl_type c = T_GOTPASS \/ cl_type c = T_GOTPASS_2813) \/ also wf (byH tkeep s) s1 s').
      { destruct T as (T1 & T2 & T3). unfold IRC_SERVER in RUN. bd RUN as c1 sx Hx. apply cli_ok in Hx. destruct Hx as [Hx ->]. rewrite C4 in Hx. injection Hx as <-. cbn [cl_conn cl_type set_cl_cloaked] in RUN. rewrite D3 in RUN.
        destruct (cl_type c) eqn:TC; auto; try contradiction; right; xlast RUN. }
      destruct TT as [TT|TT]; [|left; apply F; transitivity s1; auto].
      destruct (SERVER_tserv s1 h req _ _ _ (proj1 (cr_pre1 _ _ _ _ _ _ _ _ _ _ R)) RUN W1) as [_ F1]. destruct (F1 byH_refl) as (_ & _ & F2). destruct (P W) as [_ P1]. destruct (P1 byH_refl) as (_ & NX & P2).
      destruct (F2 j d') as (d1 & A1 & G); auto; [pose proof (wf_lt _ _ _ W J); lia|]. destruct (P2 j d1) as (d0 & A0 & G0); auto; [eapply wf_lt; eauto|]. rewrite J in A0. injection A0 as <-. unfold tkeep in G0.
      destruct G as [G|G]; [left; congruence|right; right]. split; auto. split; eauto.
    + rewrite (cmd_of "SERVICE" IRC_SERVICE US_ANY 6 (Some 6) 0 ltac:(in_cmds) _ CIN E) in RUN. eapply (MV (fun _ _ => False)); [eapply SERVICE_moved; eauto|tauto].
    + rewrite (cmd_of "USER" IRC_USER US_ANY 0 None 0 ltac:(in_cmds) _ CIN E) in RUN. eapply MV; [eapply USER_moved; eauto|].
      intros (Q1 & Q2) -> NE. rewrite C2 in J. injection J as <-. unfold argc in Q1. destruct (rq_args req) as [|w1 [|w2 [|w3 [|w4 [|? ?]]]]] eqn:RA; try discriminate Q1. destruct Q2 as [[-> Q2]|[Q2 ->]]; [eapply (RS_user_last _ _ _ w1 w2 w3 w4); auto|].
      eapply (RS_user _ _ _ w1 w2 w3 w4); auto.
Qed.

(** ---- an event ---- *)
Lemma chore_tkeep : forall s s', wf s -> chore s s' -> byH tkeep s s'.
Proof. intros s s' W H. assert (F : also wf (byH tkeep s) s s') by (apply chore_rel; exact H). destruct (F W) as [_ F1]. exact (F1 byH_refl). Qed.
Lemma silent_tkeep : forall e s s', wf s -> silent e = true -> step e s = Ok tt s' -> byH tkeep s s'.
Proof. intros e s s' W S H. assert (F : also wf (byH tkeep s) s s') by (revert H; apply step_rel_silent; exact S). destruct (F W) as [_ F1]. exact (F1 byH_refl). Qed.
Lemma isu_dec : forall s h, {isu s h} + {~ isu s h}.
Proof. intros s h. unfold isu. destruct (lookup h (s_heap s)) as [c|]; [|right; intros (x & E & _); discriminate]. destruct (ctype_eqb (cl_type c) T_USER) eqn:T; [left; exists c; split; auto; apply ctype_eqb_eq; auto|right]. intros (x & E & K). injection E as <-. rewrite K in T. discriminate. Qed.
Lemma tk_isu : forall s s' h, byH tkeep s s' -> ~ (s_next s <= h \/ isu s h) -> ~ (s_next s' <= h \/ isu s' h).
Proof.
  intros s s' h (_ & N & F) H [K|(c & K1 & K2)].
  - apply H. left. lia.
  - rewrite lookup_assoc in K1. destruct (F h c) as (c0 & A0 & E); auto. { destruct (le_lt_dec (s_next s) h); [exfalso; auto|auto]. } apply H. right. exists c0. rewrite lookup_assoc. split; auto. unfold tkeep in E. congruence.
Qed.
Theorem login_event : forall e s s' h, live s -> undisturbed s' -> (exists c, lookup h (s_heap s) = Some c) -> step e s = Ok tt s' -> ~ isu s h -> isu s' h ->
  exists i h' c text b s1 s2, live s1 /\ actions s s1 /\ client_of s1 i h' c /\ Parse_Request i text s1 = Ok b s2 /\ actions s2 s' /\
    (~ plain_type (cl_type c) \/ (h' = h /\ exists d, lookup h (s_heap s2) = Some d /\ cl_type d = T_USER /\ reg_step s1 i text (cl_type c) T_USER /\ registered_properly s2 i d)).
Proof.
  intros e s s' h L U (d & K) H N Y. assert (Lt : h < s_next s). { rewrite lookup_assoc in K. eapply wf_lt; eauto. apply live_wf; auto. }
  destruct (by_a_line (fun s => s_next s <= h \/ isu s h)) with (e := e) (s := s) (s' := s') as (i & h' & c & text & b & s1 & s2 & L1 & U1 & A1 & C & P & A2 & N1 & Y1); auto.
  - intro x. destruct (le_dec (s_next x) h); [left; auto|]. destruct (isu_dec x h); [left; auto|right; intros [|]; auto].
  - intros x x' Lx Cx Nx. eapply tk_isu; [eapply chore_tkeep; eauto; apply live_wf; auto|exact Nx].
  - intros ev x x' Lx Sx Cx Nx. eapply tk_isu; [eapply silent_tkeep; eauto; apply live_wf; auto|exact Nx].
  - intros [Q|Q]; [lia|auto].
  - exists i, h', c, text, b, s1, s2. do 5 (split; [assumption|]).
    assert (PT : {plain_type (cl_type c)} + {~ plain_type (cl_type c)}). { unfold plain_type. destruct (cl_type c); first [left; repeat split; discriminate | right; intros (? & ? & ?); congruence]. }
    destruct PT as [PT|PT]; [right|left; exact PT]. assert (U2 : undisturbed s2). { eapply undisturbed_incl; [|exact U]. apply actions_grow; auto. }
    assert (F4 : also wf (byH (fun _ _ => True) s1) s1 s2) by (apply action_rel; eapply A_line; eauto). destruct (F4 (live_wf _ L1)) as [_ F5]. destruct (F5 byH_refl) as (_ & F6 & F7).
    destruct Y1 as [Y1|(d' & J' & T')]; [exfalso; apply N1; left; lia|]. pose proof J' as J2. rewrite lookup_assoc in J'. destruct (F7 h d') as (d0 & A0 & _); auto. { destruct (le_lt_dec (s_next s1) h); [exfalso; auto|auto]. }
    assert (N2 : cl_type d0 <> T_USER). { intro E. apply N1. right. exists d0. rewrite lookup_assoc. auto. }
    destruct (login_line s1 i h' c text b s2 L1 U2 C PT P h d0 d' ltac:(rewrite lookup_assoc; exact A0) J2) as [E|[(-> & R & G)|(_ & _ & E)]]; [congruence| |destruct E; congruence].
    split; auto. exists d'. rewrite T' in R. split; auto. split; auto. split; auto. destruct C as [_ C]. rewrite lookup_assoc in C. rewrite A0 in C. injection C as ->. exact R.
Qed.
