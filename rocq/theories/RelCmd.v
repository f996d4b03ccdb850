(** Login, nicknames, registration of servers, the dispatcher and the main loop, as sequences of
    the elementary changes of RelBase.v.  These are the functions whose changes are only made
    under conditions that have been checked before. *)
From Coq Require Import List Ascii String ZArith NArith Bool Lia.
From Coq Require Import Relations RelationClasses.
From Verif Require Import Bytes Strl Match Lists Hash ParseReq State Messages Monad Core Write Info Chan Mode Msg Login Oper Server Dispatch Conn Rel RelWrite RelInfo RelBase RelChan RelSrv RelInit RelKey.
Import ListNotations.
Local Open Scope m_scope.

Lemma wr_ks : forall s s', wr s s' -> ksame s s'.
Proof. intros. apply wr_incl; auto; exact _. Qed.

Ltac same H := match type of H with ?m ?a = Ok _ ?b =>
  let E := fresh in assert (E : rel eq m) by rel_auto; specialize (E _ _ _ H); subst b; clear H end.
Ltac xstep s1 H := transitivity s1; [match type of H with ?m ?a = Ok _ ?b =>
  let E := fresh in match goal with |- ?X _ _ => assert (E : rel X m) by (first [rel_auto | solve [rel_go]]); exact (E _ _ _ H) end end|].
Ltac xlast H := match type of H with ?m ?a = Ok _ ?b =>
  let E := fresh in match goal with |- ?X _ _ => assert (E : rel X m) by (first [rel_auto | solve [rel_go]]); exact (E _ _ _ H) end end.

(** ---- the type and the connection of a client that exists ---- *)
Definition tsame (h : handle) (s s' : state) : Prop :=
  forall c, assoc h (s_heap s) = Some c -> exists c', assoc h (s_heap s') = Some c' /\ cl_type c' = cl_type c /\ cl_conn c' = cl_conn c.
#[export] Instance tsame_po : forall h, PreOrder (tsame h).
Proof.
  intro h. split; [intros s c H; eauto|]. intros a b c H1 H2 x Hx. destruct (H1 x Hx) as (y & Hy & E1 & E2).
  destruct (H2 y Hy) as (z & Hz & E3 & E4). exists z. repeat split; congruence.
Qed.
Lemma ks_tsame : forall h s s', ksame s s' -> tsame h s s'.
Proof. intros h s s' K c Hc. destruct (ks_cli _ _ _ _ K Hc) as (x & Hx & E). exists x. destruct E as (_ & _ & ? & ? & _). auto. Qed.
#[export] Instance tsame_wr : forall h, WrSub (tsame h).
Proof. intros h s s' H. apply ks_tsame. apply (ksame_wr s s' H). Qed.
Lemma tsame_set_cli : forall h k f s, (forall c, cl_type (f c) = cl_type c /\ cl_conn (f c) = cl_conn c) -> tsame h s (set_cli k f s).
Proof.
  intros h k f s H c Hc. unfold set_cli. cbn [s_heap set_s_heap]. rewrite assoc_aupd. rewrite Hc.
  destruct (Nat.eqb k h); cbn; [|eauto]. exists (f c). split; auto.
Qed.
Lemma tsame_upd : forall h k f, (forall c, cl_type (f c) = cl_type c /\ cl_conn (f c) = cl_conn c) -> rel (tsame h) (upd_cli k f).
Proof. intros h k f H s [] s' Hr. apply upd_cli_ok in Hr. destruct Hr as (x & _ & ->). apply (tsame_set_cli h k f s). auto. Qed.

Lemma tsame_hop : forall h k host, rel (tsame h) (Client_SetHostname k host).
Proof.
  intros h k host s a s' H. unfold Client_SetHostname in H. bd H as c s1 H1. rdcli H1. bd H as ck s1 H2. unfold cf in H2. rdgets H2.
  bd H as sa s1 H2. unfold cf in H2. rdgets H2. cbv zeta in H.
  match type of H with (if ?b then _ else _) _ = _ => destruct b end; (eapply tsame_upd; [|exact H]); intro x; split; reflexivity.
Qed.
Lemma tsame_opt : forall A h (o : option A) f, (forall x, rel (tsame h) (f x)) -> rel (tsame h) (opt o f).
Proof. intros A h [a|] f H; cbn [opt]; [apply H|]. intros s x s' Hr. apply ret_ok in Hr. destruct Hr as [_ ->]. reflexivity. Qed.
Lemma Init_New_type : forall idx intro top t id user host info hops token modes idented s h s', t <> T_SERVER ->
  Init_New_Client idx intro top t id user host info hops token modes idented s = Ok h s' ->
  exists c, assoc h (s_heap s') = Some c /\ cl_type c = t /\ cl_conn c = idx.
Proof.
  intros idx intro top t id user host info hops token modes idented s h s' Ht H. unfold Init_New_Client in H.
  bd H as h0 s0 H0. rdgets H0. bd H as tm s0 H0. unfold now in H0. rdgets H0. set (h0 := s_next s) in *.
  bd H as u1 s1 H1. apply modify_ok in H1.
  assert (A1 : exists c, assoc h0 (s_heap s1) = Some c /\ cl_type c = t /\ cl_conn c = idx).
  { subst s1. cbn [s_heap set_s_heap set_s_next assoc]. rewrite Nat.eqb_refl. eexists. split; [reflexivity|]. split; reflexivity. }
  assert (T : forall a b, tsame h0 a b -> (exists c, assoc h0 (s_heap a) = Some c /\ cl_type c = t /\ cl_conn c = idx) ->
    exists c, assoc h0 (s_heap b) = Some c /\ cl_type c = t /\ cl_conn c = idx).
  { intros a b W (c & Hc & E1 & E2). destruct (W c Hc) as (c' & Hc' & E3 & E4). exists c'. repeat split; congruence. }
  bd H as u2 s2 H2. apply (T s1 s2) in A1. 2: { eapply tsame_opt; [|exact H2]. intros x sa y sb Hy. unfold Client_SetID in Hy. bd Hy as w sc Hc. unfold cf in Hc. rdgets Hc. eapply tsame_upd; [|exact Hy]. intro c; unfold set_id; destruct (cf_cloakusertonick (s_conf sa)); split; reflexivity. }
  bd H as u3 s3 H3. apply (T s2 s3) in A1. 2: { eapply tsame_opt; [|exact H3]. intros x sa y sb Hy. unfold Client_SetUser in Hy. bd Hy as w sc Hc. unfold cf in Hc. rdgets Hc. eapply tsame_upd; [|exact Hy]. intro c; split; reflexivity. }
  bd H as u4 s4 H4. apply (T s3 s4) in A1. 2: { eapply tsame_opt; [|exact H4]. intro. apply tsame_hop. }
  bd H as u5 s5 H5. apply (T s4 s5) in A1. 2: { eapply tsame_opt; [|exact H5]. intros x sa y sb Hy. unfold Client_SetInfo in Hy. bd Hy as w sc Hc. unfold cf in Hc. rdgets Hc. eapply tsame_upd; [|exact Hy]. intro c; split; reflexivity. }
  bd H as u6 s6 H6. apply (T s5 s6) in A1. 2: { eapply tsame_upd; [|exact H6]. intro c; split; reflexivity. }
  bd H as u7 s7 H7. apply (T s6 s7) in A1. 2: { eapply tsame_opt; [|exact H7]. intro. unfold Client_SetModes. apply tsame_upd. intro c; split; reflexivity. }
  bd H as u8 s8 H8. assert (s8 = s7) as ->. { unfold whenM in H8. destruct (ctype_eqb t T_SERVER) eqn:E; [|rdret H8; reflexivity]. apply ctype_eqb_eq in E. contradiction. }
  bd H as u9 s9 H9. assert (s9 = s7) as ->. { unfold Client_HasMode in H9. bd H9 as c sx Hx. rdcli Hx. apply ret_ok in H9. destruct H9. auto. }
  bd H as u10 s10 H10. apply (T s7 s10) in A1. 2: { unfold whenM in H10. destruct u9; [|rdret H10; reflexivity]. eapply tsame_upd; [|exact H10]. intro c; split; reflexivity. }
  bd H as u11 s11 H11. apply modify_ok in H11. subst s11. bd H as u12 s12 H12. destruct u12. apply Adjust_Counters_ok in H12.
  destruct H12 as (m1 & m2 & ->). rdret H. exact A1.
Qed.

(** ---- a nickname that may be given to a client ---- *)
Lemma ks_cli_back : forall s s' h c', ksame s s' -> assoc h (s_heap s') = Some c' -> exists c, assoc h (s_heap s) = Some c /\ ckey c c'.
Proof. intros s s' h c' [] H. specialize (k_cli h). rewrite H in k_cli. destruct (assoc h (s_heap s)); [|contradiction]. eauto. Qed.
Lemma kstable_id_free : forall h id, kstable (id_free h id).
Proof.
  intros h id s s' K H Hp x c' Hx Hc' Hn Hh. destruct (ks_cli_back _ _ _ _ K Hc') as (c & Hc & (E1 & E2 & _)).
  rewrite (k_clients _ _ K) in Hx. rewrite E1. apply (H Hp x c); auto. congruence.
Qed.
Definition nick_ok (h : handle) (new : bytes) (s : state) : Prop :=
  exists c, assoc h (s_heap s) = Some c /\
    ((id_free h (strlcpy CLIENT_ID_LEN new) s /\ valid_nick (cf_maxnick (s_conf s)) new = true) \/ (caseeq (cl_id c) new = true /\ cl_id c <> [])).
Lemma kstable_nick_ok : forall h new, kstable (nick_ok h new).
Proof.
  intros h new s s' K (c & Hc & H). destruct (ks_cli _ _ _ _ K Hc) as (c' & Hc' & E). exists c'. split; auto.
  destruct E as (E & _). rewrite E, (k_conf _ _ K). destruct H as [[H1 H2]|H]; [left|right; auto]. split; auto. eapply kstable_id_free; eauto.
Qed.
Lemma caseeq_nonempty : forall a b, caseeq a b = true -> a <> [] -> b <> [].
Proof. intros [|x a] [|y b] H N; congruence || discriminate. Qed.
Lemma nick_ok_nonempty : forall h new s, nick_ok h new s -> new <> [].
Proof. intros h new s (c & _ & [[_ H]|[H1 H2]]); [eapply valid_nick_nonempty; eauto|eapply caseeq_nonempty; eauto]. Qed.
Lemma strlcpy_nonempty : forall n t, 2 <= n -> t <> [] -> strlcpy n t <> [].
Proof.
  intros n [|x t] Hn H; [congruence|]. unfold strlcpy. destruct (n <=? List.length (x :: t)); [|discriminate].
  destruct n as [|[|n]]; [lia|lia|]. discriminate.
Qed.
(** the client of the request or a server it introduced *)
Lemma GetFromToken_ok : forall h tok s o s', Client_GetFromToken h tok s = Ok o s' -> s' = s /\
  match o with Some i => exists c, assoc i (s_heap s) = Some c /\ cl_type c = T_SERVER /\ cl_introducer c = Some h | None => True end.
Proof.
  intros h tok s o s' H. unfold Client_GetFromToken in H. destruct (tok =? 0)%Z. { apply ret_ok in H. destruct H as [-> ->]. auto. }
  bd H as l s1 H1. unfold Clients in H1. rdgets H1. apply mfind_ok in H; [|intros a b t Ht; minv Ht; reflexivity].
  destruct H as [-> H]. split; auto. destruct o; auto. destruct H as [_ H]. bd H as c s1 H1. rdcli H1. apply ret_ok in H. destruct H as [H _].
  symmetry in H. rewrite !andb_true_iff in H. destruct H as [[E1 E2] _]. exists c. split; auto. split; [apply ctype_eqb_eq; auto|].
  unfold oheq in E2. destruct (cl_introducer c); [|discriminate]. apply Nat.eqb_eq in E2. congruence.
Qed.
Definition srv_link (h : handle) (s : state) : Prop := attached h s /\ cfact h (fun c => cl_type c = T_SERVER) s.
Lemma kstable_link : forall h, kstable (srv_link h).
Proof. intro h. apply kstable_and; [apply kstable_attached|]. apply cfact_kstable. intros c c' (_ & _ & E & _) H. congruence. Qed.
Lemma link_intro : forall h i t s, srv_link h s -> t <> T_SERVER ->
  (exists c, assoc i (s_heap s) = Some c /\ cl_type c = T_SERVER /\ cl_introducer c = Some h) -> intro_ok i t s.
Proof. intros h i t s [A (c & Hc & T)] Ht (ci & Hi & T1 & T2). exists h, c, ci. repeat split; auto. Qed.
Lemma link_intro_self : forall h t s, srv_link h s -> intro_ok h t s.
Proof. intros h t s [A (c & Hc & T)]. exists h, c, c. repeat split; auto. Qed.

Section R.
Context {X : state -> state -> Prop} {PO : PreOrder X} {WS : WrSub X}.
Context {P_meta : PS L_meta X} {P_attr : PS L_attr X} {P_umode : PS L_umode X} {P_oper : PS L_oper X}
  {P_create : PS L_create X} {P_create_any : PS L_create_any X} {P_addmb : PS L_addmb X} {P_remove : PS L_remove X}
  {P_mbmode : PS L_mbmode X} {P_chadd : PS L_chadd X} {P_chdel : PS L_chdel X}
  {P_setmodes : PS L_setmodes X} {P_topic : PS L_topic X} {P_key : PS L_key X} {P_limit : PS L_limit X}
  {P_keyfile : PS L_keyfile X} {P_lists : PS L_lists X} {P_away : PS L_away X} {P_check : PS L_check X} {P_useinv : PS L_useinv X} {P_addinv : PS L_addinv X} {P_class : PS L_class X} {P_whowas : PS L_whowas X}
  {P_sv : PS L_sv X} {P_sig : PS L_sig X} {P_wc : PS L_wc X} {P_conn : PS L_conn X}
  {P_intro : PS L_intro X} {P_id : PS L_id X} {P_register : PS L_register X} {P_type : PS L_type X} {P_type0 : PS L_type0 X} {P_new : PS L_new X}
  {P_service : PS L_service X} {P_destroy : PS L_destroy X} {P_close : PS L_close X}
  {P_accept : PS L_accept X} {P_newserver : PS L_newserver X} {P_time : PS L_time X}
  {P_lm : LM X}.
#[local] Hint Extern 0 (rel _ (Login_Modes _)) => apply lm : rel.
#[local] Hint Resolve me_host me_ipa me_user me_info me_flags me_account me_away me_hops me_token me_cap_pending me_cap_multi : rel.
#[local] Hint Extern 1 (rel _ (upd_cli _ _)) => (apply upd_attr_rel; intro; split; [|reflexivity|reflexivity]) : rel.
#[local] Hint Extern 2 (rel _ (upd_cli _ _)) => (apply upd_meta_rel; intro) : rel.
#[local] Hint Extern 0 (rel _ (Conn_Close _ _ _ _)) => apply Conn_Close_rel : rel.
#[local] Hint Extern 2 (rel _ (upd_con _ _)) => (apply upd_cconn_rel; intros []; split; reflexivity) : rel.
#[local] Hint Extern 0 (rel _ (modify (set_s_wcounter 0))) => (intros ? ? ? Hm; apply modify_ok in Hm; subst; apply (ps (l := L_wc)); apply p_wc) : rel.
Lemma settype_step : forall h t c s s', Client_SetType h t s = Ok tt s' -> assoc h (s_heap s) = Some c -> type_ok h t c s -> X s s'.
Proof. intros h t c s s' H Hc Ht. apply (ps (l := L_type)). eapply p_type; eauto. Qed.
Lemma settype0_step : forall h t c s s', Client_SetType h t s = Ok tt s' -> t = T_UNKNOWNSERVER \/ t = T_SERVER -> assoc h (s_heap s) = Some c -> type_ok h t c s -> X s s'.
Proof. intros h t c s s' H Nt Hc Ht. apply (ps (l := L_type0)). eapply p_type0; eauto. Qed.

(** after [Client_SetType] *)
Lemma SetType_type : forall h t s s', Client_SetType h t s = Ok tt s' -> forall c, assoc h (s_heap s) = Some c ->
  exists c', assoc h (s_heap s') = Some c' /\ cl_type c' = t /\ cl_conn c' = cl_conn c /\ cl_id c' = cl_id c.
Proof.
  intros h t s s' H c Hc. apply Client_SetType_ok in H. destruct H as (c0 & tok & a & b & Hc0 & -> & _).
  rewrite Hc in Hc0. inversion Hc0; subst c0. exists (typed t tok c).
  split; [|unfold typed; destruct (ctype_eqb t T_SERVER); repeat split; reflexivity].
  cbn [s_heap set_s_maxusers set_s_mymaxusers set_cli set_s_heap]. rewrite assoc_aupd, Nat.eqb_refl.
  replace (s_heap (if_odd (retype_odd c t) O_Retype s)) with (s_heap s) by (unfold if_odd; destruct (retype_odd c t); reflexivity).
  rewrite Hc. reflexivity.
Qed.

(** Client_Introduce makes a client a user (or service) *)
Definition may_user (h : handle) (t : ctype) (s : state) : Prop := exists c, assoc h (s_heap s) = Some c /\ type_ok h t c s.
Lemma Client_Introduce_relp : forall from h t, userish t = true -> relp (may_user h t) X (Client_Introduce from h t).
Proof.
  intros from h t Ht s a s' (c & Hc & Ok0) H. unfold Client_Introduce in H. bd H as u s1 H1. destruct u.
  transitivity s1; [eapply settype_step; eauto|].
  destruct (SetType_type _ _ _ _ H1 _ Hc) as (c1 & Hc1 & T1 & _ & _).
  bd H as u s2 H2. transitivity s2; [|xlast H].
  destruct from as [f|]; [|xlast H2].
  bd H2 as o s3 H3. same H3. bd H2 as i s3 H4. same H4. bd H2 as sv s3 H5. same H5.
  destruct sv as [n|]; [|xlast H2].
  bd H2 as id s3 H6. same H6. bd H2 as x s4 H7. same H7.
  unfold whenM in H2. destruct (Conf_NickIsService x id); [|xlast H2]. destruct u.
  eapply settype_step; eauto. split; rewrite ?T1; auto; try discriminate.
Qed.

(** Login_User *)
Definition login_ok (c : client) : Prop :=
  nickish (cl_type c) = true /\ cl_type c <> T_USER \/ cl_type c = T_GOTUSER /\ cl_id c <> [].
Lemma login_ok_key : forall c c', ckey c c' -> login_ok c -> login_ok c'.
Proof. intros c c' (E1 & _ & E2 & _) H. unfold login_ok in *. rewrite E1, E2. exact H. Qed.
Lemma login_type_ok : forall h t c s, login_ok c -> t = T_WAITAUTHPING \/ t = T_WAITCAPEND \/ t = T_USER -> type_ok h t c s.
Proof.
  intros h t c s H Ht. assert (userish (cl_type c) = false). { destruct H as [[H1 H2]|[H1 H2]]; [destruct (cl_type c); try discriminate; auto; exfalso; apply H2; reflexivity|rewrite H1; reflexivity]. }
  split; auto.
  - intro E. rewrite E in *. discriminate.
  - right. right. right. right. right. split.
    + unfold prereg. destruct H as [[H1 H2]|[H1 H2]]; [rewrite H1; reflexivity|rewrite H1; reflexivity].
    + intros _. destruct H as [[H1 H2]|[H1 H2]]; auto.
  - intros ->. destruct Ht as [E|[E|E]]; discriminate.
  - intros ->. destruct Ht as [E|[E|E]]; discriminate.
Qed.
Lemma Login_User_PostAuth_relp : forall h, relp (cfact h login_ok) X (Login_User_PostAuth h).
Proof.
  intros h s a s' (c & Hc & L) H. unfold Login_User_PostAuth in H. bd H as ok s1 H1. 
  destruct ok; cbn [negb] in H; [|xstep s1 H1; xlast H].
  assert (K : ksame s s1).
  { unfold Class_HandleServerBans in H1. bd H1 as g s2 H2. bd H1 as r s3 H3. transitivity s3.
    - xstep s2 H2. xlast H3.
    - destruct r; [|rdret H1; reflexivity]. bd H1 as u s4 H4. apply ret_ok in H1. destruct H1; discriminate. }
  xstep s1 H1. bd H as u s2 H2. transitivity s2; [|xlast H].
  eapply Client_Introduce_relp; [|exact H2 || idtac|exact H2]; [reflexivity|].
  destruct (ks_cli _ _ _ _ K Hc) as (c1 & Hc1 & E). exists c1. split; auto. apply login_type_ok; auto. eapply login_ok_key; eauto.
Qed.
Lemma Login_User_relp : forall h, relp (cfact h login_ok) X (Login_User h).
Proof.
  intros h s a s' (c & Hc & L) H. unfold Login_User in H. bd H as o s1 H1. same H1. bd H as i s1 H2. same H2.
  bd H as ap s1 H3. same H3. bd H as cn s1 H4. same H4. destruct (ap && negb (co_auth_ping cn =? 0)%Z).
  { bd H as u s1 H5. rdret H. destruct u. eapply settype_step; eauto. apply login_type_ok; auto. }
  bd H as c0 s1 H5. rdcli H5. destruct (cl_cap_pending c0).
  { bd H as u s1 H6. rdret H. destruct u. eapply settype_step; [exact H6|exact Hc|]. apply login_type_ok; auto. }
  bd H as pwd s1 H6. same H6. bd H as spwd s1 H7. same H7. destruct (negb (beq pwd spwd)); [xlast H|].
  eapply Login_User_PostAuth_relp; eauto. exists c. auto.
Qed.

(** PASS *)
Lemma IRC_PASS_rel : forall h req, rel X (IRC_PASS h req).
Proof.
  intros h req s a s' H. unfold IRC_PASS in H. bd H as c s1 H1. rdcli H1. destruct (cl_conn c) eqn:Ec; [|xlast H]. cbv zeta in H.
  match type of H with (if ?b then _ else _) _ = _ => destruct b eqn:Eb end; [|match type of H with ?m _ = _ => assert (E : rel X m) by rel_auto; exact (E _ _ _ H) end].
  bd H as u s1 H2. assert (K : ksame s s1) by xlast H2. xstep s1 H2.
  bd H as u2 s2 H3. transitivity s2; [|xlast H]. destruct u2.
  destruct (ks_cli _ _ _ _ K H1) as (c1 & Hc1 & (E1 & _ & E2 & E3 & _)).
  assert (T : cl_type c = T_UNKNOWN \/ cl_type c = T_UNKNOWNSERVER).
  { rewrite !orb_true_iff, !andb_true_iff, !orb_true_iff in Eb. destruct Eb as [[Eb _]|[[Eb|Eb] _]]; apply ctype_eqb_eq in Eb; auto. }
  match type of H3 with Client_SetType _ ?t _ = _ => assert (Ht : t = T_GOTPASS_2813 \/ t = T_GOTPASS) by (match goal with |- (if ?b then _ else _) = _ \/ _ => destruct b; auto end); set (t0 := t) in * end. clearbody t0.
  eapply settype_step; eauto.
  assert (U : userish (cl_type c1) = false) by (rewrite E2; destruct T as [-> | ->]; reflexivity).
  split; auto; try (intros E; rewrite E in *; discriminate).
  - rewrite E2, E1. destruct T as [-> | ->].
    + do 5 right. split; [reflexivity|]. intro N. exfalso. destruct Ht as [-> | ->]; discriminate N.
    + destruct (cl_id c); [do 4 right; left; split; auto; destruct Ht as [-> | ->]; reflexivity|]. do 3 right. left. split; congruence.
  - intro N. exfalso. destruct Ht as [-> | ->]; discriminate N.
  - intro N. exfalso. destruct Ht as [-> | ->]; discriminate N.
Qed.

(** NICK *)
Lemma setid_step : forall h new s s', Client_SetID h new s = Ok tt s' -> nick_ok h new s -> X s s'.
Proof.
  intros h new s s' H (c & Hc & N). unfold Client_SetID in H. bd H as u s1 H1. unfold cf in H1. rdgets H1. apply upd_cli_ok in H.
  destruct H as (c0 & Hc0 & ->). apply (ps (l := L_id)). eapply p_id; eauto.
  - destruct N as [[N1 N2]|[N1 N2]]; auto.
  - destruct N as [[N1 N2]|[N1 N2]]; auto.
Qed.
Lemma Change_Nick_relp : forall origin h new inform, relp (nick_ok h new) X (Change_Nick origin h new inform).
Proof.
  intros origin h new inform s a s' N H. unfold Change_Nick in H.
  bd H as o s1 H1. same H1. bd H as u1 s1 H1. xstep s1 H1. assert (K1 : ksame s s1) by xlast H1. apply (kstable_nick_ok _ _ _ _ K1) in N.
  bd H as u2 s2 H2. xstep s2 H2. assert (K2 : ksame s1 s2) by xlast H2. apply (kstable_nick_ok _ _ _ _ K2) in N.
  bd H as u3 s3 H3. xstep s3 H3. assert (K3 : ksame s2 s3) by xlast H3. apply (kstable_nick_ok _ _ _ _ K3) in N.
  bd H as u4 s4 H4. xstep s4 H4. assert (K4 : ksame s3 s4) by xlast H4. apply (kstable_nick_ok _ _ _ _ K4) in N.
  destruct a. eapply setid_step; eauto.
Qed.
Definition nick_self (me target : handle) (ct : client) (s : state) : Prop :=
  me = target /\ (cl_type ct = T_UNKNOWN \/ cl_type ct = T_GOTPASS \/ cl_type ct = T_GOTNICK \/ cl_type ct = T_GOTUSER) \/
  me <> target /\ cfact me (fun c => cl_type c = T_SERVER) s.
Lemma nick_new_step : forall client target new s a s', nick_new client target new s = Ok a s' ->
  nick_ok target new s -> (exists ct, assoc target (s_heap s) = Some ct /\ nick_self client target ct s) -> X s s'.
Proof.
  intros client target new s a s' H N (ct & Hct & S). unfold nick_new in H.
  bd H as u s1 H1. destruct u. transitivity s1; [eapply setid_step; eauto|].
  assert (F : exists cc, assoc client (s_heap s1) = Some cc /\ ((cl_id cc <> [] /\ (cl_type cc = T_UNKNOWN \/ cl_type cc = T_GOTPASS \/ cl_type cc = T_GOTNICK \/ cl_type cc = T_GOTUSER)) \/ cl_type cc = T_SERVER)).
  { pose proof (nick_ok_nonempty _ _ _ N) as Ne. unfold Client_SetID in H1. bd H1 as u sx Hx. unfold cf in Hx. rdgets Hx. apply upd_cli_ok in H1.
    destruct H1 as (c0 & Hc0 & ->). cbn [s_heap set_s_heap]. destruct S as [[-> S]|[S (cc & Hcc & T)]].
    - rewrite assoc_aupd, Nat.eqb_refl, Hct. cbn. eexists. split; [reflexivity|]. left. split.
      + unfold set_id. destruct (cf_cloakusertonick (s_conf s)); cbn; apply strlcpy_nonempty; auto; unfold CLIENT_ID_LEN; lia.
      + unfold set_id. destruct (cf_cloakusertonick (s_conf s)); exact S.
    - rewrite assoc_aupd. replace (Nat.eqb target client) with false by (symmetry; apply Nat.eqb_neq; auto). exists cc. split; auto. }
  clear H1 S Hct ct N.
  bd H as ap s2 H2. same H2. bd H as u s2 H2. xstep s2 H2. assert (K : ksame s1 s2) by xlast H2.
  destruct F as (cc & Hcc & F). destruct (ks_cli _ _ _ _ K Hcc) as (c2 & Hc2 & (E1 & _ & E2 & _)).
  bd H as gu s3 H3. apply is_type_ok in H3. destruct H3 as (-> & c3 & Hc3 & ->). rewrite Hc2 in Hc3. inversion Hc3; subst c3. clear Hc3.
  destruct (ctype_eqb (cl_type c2) T_GOTUSER) eqn:G.
  { apply ctype_eqb_eq in G. eapply Login_User_relp; [|exact H]. exists c2. split; auto. right. split; auto. rewrite E1. destruct F as [[F _]|F]; auto. congruence. }
  bd H as u3 s3 H3. rdret H. destruct u3. eapply settype_step; eauto.
  assert (G' : cl_type c2 <> T_GOTUSER) by (intro; rewrite H in G; discriminate).
  split; try discriminate.
  - left. rewrite E2. destruct F as [[_ [-> |[-> |[-> | ->]]]]| ->]; reflexivity.
  - intro E. exfalso. rewrite E2 in E. destruct F as [[_ [F|[F|[F|F]]]]|F]; congruence.
  - rewrite E1, E2. destruct F as [[N F]|F]; [|auto]. do 5 right. split; [destruct F as [-> |[-> |[-> | ->]]]; reflexivity|auto].
Qed.
Lemma nick_change_relp : forall client target new, relp (nick_ok target new) X (nick_change client target new).
Proof.
  intros client target new s a s' N H. unfold nick_change in H. bd H as usr s1 H1. same H1. bd H as op s1 H2. same H2. bd H as l s1 H3. same H3.
  bd H as n s1 H4. assert (s1 = s). { destruct (usr && negb op); same H4; reflexivity. } subst s1. destruct n; [xlast H|].
  bd H as u s1 H5. transitivity s1; [eapply Change_Nick_relp; eauto|xlast H].
Qed.
Lemma nick_target_step : forall client target new s a s', nick_target client target new s = Ok a s' ->
  (client = target /\ cfact client (fun c => match cl_type c with T_UNKNOWN | T_GOTPASS | T_GOTNICK | T_GOTUSER | T_USER | T_SERVICE => True | _ => False end) s
   \/ cfact client (fun c => cl_type c = T_SERVER) s) -> X s s'.
Proof.
  intros client target new s a s' H P. unfold nick_target in H. bd H as id s1 H1.
  assert (E0 : s1 = s /\ exists c, assoc target (s_heap s) = Some c /\ id = match cl_id c with [] => B "*" | _ => cl_id c end).
  { unfold Client_ID in H1. bd H1 as c s2 H2. rdcli H2. bd H1 as u s3 H3. same H3. bd H1 as w s3 H3. same H3. apply ret_ok in H1. destruct H1 as [-> ->]. split; [reflexivity|]. exists c. split; auto. }
  clear H1. destruct E0 as (-> & ct & Hct & Hid).
  destruct (beq id new) eqn:Eb; [xlast H|]. bd H as ok s1 H1.
  xstep s1 H1. destruct ok; cbn [negb] in H; [|xlast H].
  assert (N : s1 = s /\ nick_ok target new s).
  { destruct (caseeq id new) eqn:Ec; cbn [negb] in H1.
    - rdret H1. split; auto. exists ct. split; auto. right. destruct (cl_id ct) eqn:E.
      + exfalso. subst id. assert (new = B "*"); [|subst; discriminate Eb].
        destruct new as [|x [|y new]]; try discriminate Ec; [|unfold caseeq in Ec; cbn in Ec; rewrite andb_false_r in Ec; discriminate Ec].
        f_equal. revert Ec. clear. unfold caseeq. destruct x as [[] [] [] [] [] [] [] []]; intro H; try reflexivity; discriminate H.
      + subst id. split; auto. discriminate.
    - apply CheckNick_ok in H1. destruct H1 as (-> & V & Hs). split; auto. exists ct. split; auto. left. split; auto. apply search_id_free. auto. }
  destruct N as (-> & N). clear H1. bd H as t s1 H1. apply Client_Type_ok in H1. destruct H1 as (-> & c & Hc & ->).
  rewrite Hct in Hc. inversion Hc; subst c. clear Hc.
  assert (A : match cl_type ct with T_USER | T_SERVICE | T_SERVER => True | _ => nick_self client target ct s end).
  { destruct P as [[-> (c & Hc & P)]|(c & Hc & P)].
    - rewrite Hct in Hc. inversion Hc; subst c. destruct (cl_type ct) eqn:E; auto; try contradiction; left; rewrite E; auto.
    - destruct (Nat.eq_dec client target) as [-> |Ne].
      + rewrite Hct in Hc. inversion Hc; subst c. rewrite P. auto.
      + destruct (cl_type ct); auto; right; split; auto; exists c; auto. }
  destruct (cl_type ct) eqn:E; try (eapply nick_change_relp; eauto; fail); eapply nick_new_step; eauto.
Qed.


Lemma nick_target_user : forall target new s a s', nick_target target target new s = Ok a s' -> cfact target (fun c => cl_type c = T_USER) s -> X s s'.
Proof.
  intros target new s a s' H P. unfold nick_target in H. bd H as id s1 H1.
  assert (E0 : s1 = s /\ exists c, assoc target (s_heap s) = Some c /\ id = match cl_id c with [] => B "*" | _ => cl_id c end).
  { unfold Client_ID in H1. bd H1 as c s2 H2. rdcli H2. bd H1 as u s3 H3. same H3. bd H1 as w s3 H3. same H3. apply ret_ok in H1. destruct H1 as [-> ->]. split; [reflexivity|]. exists c. split; auto. }
  clear H1. destruct E0 as (-> & ct & Hct & Hid).
  destruct (beq id new) eqn:Eb; [xlast H|]. bd H as ok s1 H1.
  xstep s1 H1. destruct ok; cbn [negb] in H; [|xlast H].
  assert (N : s1 = s /\ nick_ok target new s).
  { destruct (caseeq id new) eqn:Ec; cbn [negb] in H1.
    - rdret H1. split; auto. exists ct. split; auto. right. destruct (cl_id ct) eqn:E.
      + exfalso. subst id. assert (new = B "*"); [|subst; discriminate Eb].
        destruct new as [|x [|y new]]; try discriminate Ec; [|unfold caseeq in Ec; cbn in Ec; rewrite andb_false_r in Ec; discriminate Ec].
        f_equal. revert Ec. clear. unfold caseeq. destruct x as [[] [] [] [] [] [] [] []]; intro H; try reflexivity; discriminate H.
      + subst id. split; auto. discriminate.
    - apply CheckNick_ok in H1. destruct H1 as (-> & V & Hs). split; auto. exists ct. split; auto. left. split; auto. apply search_id_free. auto. }
  destruct N as (-> & N). clear H1. bd H as t s1 H1. apply Client_Type_ok in H1. destruct H1 as (-> & c & Hc & ->).
  destruct P as (c' & Hc' & P). rewrite Hc in Hc'. injection Hc' as <-. rewrite P in H. eapply nick_change_relp; eauto.
Qed.

Lemma nick_introduce_relp : forall h req, relp (srv_link h) X (nick_introduce h req).
Proof.
  intros h req s a s' L H. unfold nick_introduce in H. destruct (negb (argc req =? 2) && negb (argc req =? 7)); [xlast H|]. cbv zeta in H.
  bd H as id s1 H1. same H1. bd H as o s1 H1. pose proof (Client_Search_ok _ _ _ _ H1) as [-> _]. destruct o; [xlast H|].
  pose proof (search_id_free (s_next s) _ _ H1) as F.
  bd H as oi s1 H2. apply GetFromToken_ok in H2. destruct H2 as [-> Hi]. destruct oi as [i|]; [|xlast H].
  assert (I : intro_ok i T_USER s) by (eapply link_intro; eauto; discriminate).
  destruct (argc req =? 7).
  - bd H as modes s1 H2. assert (s1 = s). { destruct (arg req 5); [unfold bad in H2; discriminate|rdret H2; reflexivity]. } subst s1.
    bd H as c s1 H3. transitivity s1. { apply (ps (l := L_new)). eapply p_new; [exact I|left; reflexivity|exact F|exact H3]. }
    bd H as u s2 H4. rdret H. eapply Client_Introduce_relp; [|exact H4 || idtac|exact H4]; [reflexivity|].
    unfold Client_NewRemoteUser in H3. apply Init_New_type in H3; [|discriminate]. destruct H3 as (x & Hx & T1 & T2).
    exists x. split; auto. split; auto; try discriminate.
    intro E. congruence.
  - bd H as c s1 H3. bd H as u s2 H4. rdret H. destruct u. apply (ps (l := L_new)). eapply p_newnick; eauto.
Qed.
Lemma IRC_NICK_relp : forall h req, relp (attached h) X (IRC_NICK h req).
Proof.
  intros h req s a s' L H. unfold IRC_NICK in H. bd H as t s1 H1. apply Client_Type_ok in H1. destruct H1 as (-> & c & Hc & ->). cbv zeta in H.
  assert (SELF : match cl_type c with T_UNKNOWN | T_GOTPASS | T_GOTNICK | T_GOTUSER | T_USER | T_SERVICE => True | _ => False end ->
    (if argc req =? 1 then r <- Client_HasMode h "r" ;; if r then IRC_WriteErrClient h ERR_RESTRICTED_MSG [aID h] else nick_target h h (arg req 0) else need_more h req) s = Ok a s' -> X s s').
  { intros T R. destruct (argc req =? 1); [|xlast R]. bd R as r s1 R1. same R1. destruct r; [xlast R|]. eapply nick_target_step; eauto. left. split; auto. exists c. auto. }
  destruct (cl_type c) eqn:T; try (apply SELF; [exact I|exact H]); try xlast H.
  destruct (argc req =? 1).
  - unfold with_prefix in H. destruct (rq_prefix req); [|xlast H]. bd H as o s1 H1. same H1. destruct o; [|xlast H].
    eapply nick_target_step; eauto. right. exists c. auto.
  - eapply nick_introduce_relp; [|exact H]. split; auto. exists c. auto.
Qed.
Lemma IRC_SVSNICK_rel : forall h req, rel X (IRC_SVSNICK h req).
Proof.
  intros h req s a s' H. unfold IRC_SVSNICK, with_prefix in H. destruct (rq_prefix req); [|xlast H].
  bd H as o s1 H1. same H1. cbv zeta in H. bd H as ot s1 H1. pose proof (Client_Search_ok _ _ _ _ H1) as [-> Hs].
  bd H as ok s1 H2. assert (s1 = s). { destruct ot; same H2; reflexivity. } subst s1. clear H2.
  destruct ok, ot as [x|]; try xlast H. bd H as oc s1 H2. same H2. destruct oc; [|xlast H].
  destruct Hs as (_ & cx & Hcx & _).
  bd H as ok s1 H2. xstep s1 H2. destruct ok; cbn [negb] in H; [|xlast H]. apply CheckNick_ok in H2. destruct H2 as (-> & V & Hs).
  bd H as u s1 H2. rdret H. eapply Change_Nick_relp; [|exact H2]. exists cx. split; auto. left. split; auto. apply search_id_free. auto.
Qed.
Lemma IRC_USER_rel : forall h req, rel X (IRC_USER h req).
Proof.
  intros h req s a s' H. unfold IRC_USER in H. bd H as t s1 H1. apply Client_Type_ok in H1. destruct H1 as (-> & c & Hc & ->).
  assert (U : cl_type c = T_GOTNICK \/ cl_type c = T_UNKNOWN \/ cl_type c = T_GOTPASS ->
    (if negb (argc req =? 4) then need_more h req
      else if negb (forallb userchar_ok (arg req 0)) then
        o <- Client_Conn h ;; i <- nonnull o ;;
        Conn_Close i None (Some (B "Invalid user name")) true ;;; ret DISCONNECTED
      else
        Client_SetUser h (fst (split1 "@" (arg req 0))) false ;;;
        Client_SetInfo h (match arg req 3 with [] => B "-" | x => x end) ;;;
        if ctype_eqb (cl_type c) T_GOTNICK then Login_User h
        else Client_SetType h T_GOTUSER ;;; ret CONNECTED) s = Ok a s' -> X s s').
  { intros T R. destruct (negb (argc req =? 4)); [xlast R|]. destruct (negb (forallb userchar_ok (arg req 0))); [xlast R|].
    bd R as u1 s1 R1. xstep s1 R1. assert (K1 : ksame s s1) by xlast R1. bd R as u2 s2 R2. xstep s2 R2. assert (K2 : ksame s1 s2) by xlast R2.
    assert (K : ksame s s2) by (etransitivity; eauto). destruct (ks_cli _ _ _ _ K Hc) as (c2 & Hc2 & (E1 & _ & E2 & _)).
    destruct (ctype_eqb (cl_type c) T_GOTNICK) eqn:G.
    - apply ctype_eqb_eq in G. eapply Login_User_relp; [|exact R]. exists c2. split; auto. left. rewrite E2, G. split; [reflexivity|discriminate].
    - bd R as u3 s3 R3. rdret R. destruct u3. eapply settype_step; eauto. split; try discriminate.
      + left. rewrite E2. destruct T as [-> |[-> | ->]]; reflexivity.
      + intro E. exfalso. rewrite E2 in E. destruct T as [T|[T|T]]; congruence.
      + do 5 right. rewrite E2. split; [destruct T as [-> |[-> | ->]]; reflexivity|discriminate]. }
  assert (V : (if negb (argc req =? 4) then need_more h req
      else with_prefix h req (fun p =>
        o <- Client_Search p ;;
        match o with
        | None => no_sender h p
        | Some c =>
            Client_SetUser c (arg req 0) true ;;;
            Client_SetHostname c (arg req 1) ;;;
            Client_SetInfo c (arg req 3) ;;;
            g <- is_type c T_GOTNICK ;;
            whenM g (Client_Introduce (Some h) c T_USER) ;;;
            ret CONNECTED
        end)) s = Ok a s' -> X s s').
  { intro R. destruct (negb (argc req =? 4)); [xlast R|]. unfold with_prefix in R. destruct (rq_prefix req); [|xlast R].
    bd R as o s1 R1. same R1. destruct o as [x|]; [|xlast R]. bd R as u1 s1 R1. xstep s1 R1. bd R as u2 s2 R2. xstep s2 R2. bd R as u3 s3 R3. xstep s3 R3.
    bd R as g s4 R4. apply is_type_ok in R4. destruct R4 as (-> & cx & Hcx & ->). bd R as u5 s5 R5. rdret R.
    destruct (ctype_eqb (cl_type cx) T_GOTNICK) eqn:G; cbn [whenM] in R5; [|xlast R5]. apply ctype_eqb_eq in G.
    eapply Client_Introduce_relp; [|exact R5 || idtac|exact R5]; [reflexivity|]. exists cx. split; auto. apply login_type_ok; auto. left. rewrite G. split; [reflexivity|discriminate]. }
  destruct (cl_type c) eqn:T; try (apply U; [auto|exact H]); try (apply V; exact H); xlast H.
Qed.
Lemma IRC_SERVICE_relp : forall h req, relp (attached h) X (IRC_SERVICE h req).
Proof.
  intros h req s a s' L H. unfold IRC_SERVICE in H. bd H as t s1 H1. apply Client_Type_ok in H1. destruct H1 as (-> & c & Hc & ->).
  destruct (cl_type c) eqn:T; try xlast H. cbv zeta in H.
  bd H as o s1 H1. pose proof (Client_Search_ok _ _ _ _ H1) as [-> _]. destruct o; [xlast H|].
  bd H as oi s1 H2. apply GetFromToken_ok in H2. destruct H2 as [-> Hi]. destruct oi as [i|]; [|xlast H].
  assert (I : intro_ok i T_USER s). { eapply link_intro; eauto; [|discriminate]. split; auto. exists c. auto. }
  destruct (split1 "@" (arg req 0)) as [nick host]. bd H as ihost s1 H2. same H2. destruct (split1 "!" nick) as [nick' user].
  bd H as x s1 H3. bd H as u s2 H4. rdret H. unfold Client_Introduce in H4. bd H4 as u' s3 H5. destruct u'.
  transitivity s3. { apply (ps (l := L_service)). eapply p_service; [exact I|exact H3|exact H5]. }
  unfold Client_NewRemoteUser in H3. apply Init_New_type in H3; [|discriminate]. destruct H3 as (cx & Hx & T1 & T2).
  destruct (SetType_type _ _ _ _ H5 _ Hx) as (c1 & Hc1 & T3 & _ & _).
  bd H4 as u' s4 H6. transitivity s4; [|xlast H4].
  bd H6 as o s5 H7. same H7. bd H6 as j s5 H7. same H7. bd H6 as sv s5 H7. same H7.
  destruct sv as [n|]; [|xlast H6]. bd H6 as id s5 H7. same H7. bd H6 as y s5 H7. same H7.
  unfold whenM in H6. destruct (Conf_NickIsService y id); [|xlast H6]. destruct u'.
  eapply settype_step; eauto. split; rewrite ?T3; auto; try discriminate.
Qed.
Definition prefix_ok (h : handle) (req : request) (s : state) : Prop :=
  match rq_prefix req with
  | None => True
  | Some p => exists x, Client_Search p s = Ok (Some x) s /\ Client_NextHop x s = Ok h s
  end.
Definition cmd_pre (h : handle) (req : request) (s : state) : Prop := attached h s /\ prefix_ok h req s.
Lemma IRC_QUIT_relp : forall h req, relp (prefix_ok h req) X (IRC_QUIT h req).
Proof.
  intros h req s a s' L H. unfold IRC_QUIT in H. cbv zeta in H. bd H as srv s1 H1. apply is_type_ok in H1. destruct H1 as (-> & c & Hc & ->).
  destruct (ctype_eqb (cl_type c) T_SERVER); [|xlast H]. unfold with_prefix, prefix_ok in *. destruct (rq_prefix req); [|xlast H].
  bd H as o s1 H1. pose proof (Client_Search_ok _ _ _ _ H1) as [-> Hs]. destruct L as (x & L1 & L2). rewrite H1 in L1. inversion L1; subst o. clear L1.
  destruct (heq x h) eqn:E; cbn [negb] in H; [xlast H|]. bd H as u s1 H2. rdret H. destruct u. destruct Hs as (_ & cx & Hcx & _).
  apply (ps (l := L_destroy)). eapply p_destroy; eauto. right. exists h. split; auto. intros ->. unfold heq in E. rewrite Nat.eqb_refl in E. discriminate.
Qed.
Lemma pong_here_rel : forall h req, rel X (pong_here h req).
Proof.
  intros h req s a s' H. unfold pong_here in H. bd H as o s1 H1. same H1. bd H as i s1 H1. same H1. bd H as cn s1 H1. same H1. cbv zeta in H.
  bd H as ok s1 H1. transitivity s1; [|xlast H]. destruct (negb (co_auth_ping cn =? 0)%Z); [|xlast H1].
  destruct (co_auth_ping cn =? atol (arg req 0))%Z; [|xlast H1].
  bd H1 as u s2 H2. xstep s2 H2. bd H1 as w s3 H3. apply is_type_ok in H3. destruct H3 as (-> & cx & Hcx & ->).
  bd H1 as v s4 H4. rdret H1. destruct (ctype_eqb (cl_type cx) T_WAITAUTHPING) eqn:G; cbn [whenM] in H4; [|xlast H4].
  apply ctype_eqb_eq in G. unfold void in H4. bd H4 as r s5 H5. rdret H4. eapply Login_User_relp; [|exact H5]. exists cx. split; auto. left. rewrite G. split; [reflexivity|discriminate].
Qed.
#[local] Hint Extern 0 (rel _ (pong_here _ _)) => apply pong_here_rel : rel.
Lemma IRC_PONG_rel : forall h req, rel X (IRC_PONG h req).
Proof. intros. unfold IRC_PONG; rel_auto. Qed.
Lemma Handle_CAP_END_rel : forall h, rel X (Handle_CAP_END h).
Proof.
  intros h s a s' H. unfold Handle_CAP_END in H. bd H as t s1 H1. apply Client_Type_ok in H1. destruct H1 as (-> & c & Hc & ->).
  destruct (ctype_eqb (cl_type c) T_USER); [xlast H|]. bd H as u s1 H1. xstep s1 H1. assert (K : ksame s s1) by xlast H1.
  destruct (ctype_eqb (cl_type c) T_WAITCAPEND) eqn:G; [|xlast H]. apply ctype_eqb_eq in G.
  destruct (ks_cli _ _ _ _ K Hc) as (c2 & Hc2 & (E1 & _ & E2 & _)). eapply Login_User_relp; [|exact H]. exists c2. split; auto. left. rewrite E2, G. split; [reflexivity|discriminate].
Qed.
#[local] Hint Extern 0 (rel _ (Handle_CAP_END _)) => apply Handle_CAP_END_rel : rel.
Lemma IRC_CAP_rel : forall h req, rel X (IRC_CAP h req).
Proof. intros. unfold IRC_CAP; rel_auto. Qed.

(** ---- servers ---- *)
Lemma and_then_ok : forall (a b : M bool) s r s', (a >>> b) s = Ok r s' ->
  exists x s1, a s = Ok x s1 /\ (x = true /\ b s1 = Ok r s' \/ x = false /\ s' = s1 /\ r = false).
Proof.
  intros a b s r s' H. apply bind_ok in H. destruct H as (x & s1 & H1 & H). exists x, s1. split; auto.
  destruct x; auto. apply ret_ok in H. destruct H as [-> ->]. auto.
Qed.
Lemma ENDOFMOTD_relp : forall h, relp (cfact h (fun c => cl_type c = T_SERVER \/ cl_type c = T_UNKNOWNSERVER)) X (IRC_Num_ENDOFMOTD h).
Proof.
  intros h s a s' (c & Hc & T) H. unfold IRC_Num_ENDOFMOTD in H. bd H as u s1 H1. destruct u. transitivity s1; [|xlast H].
  eapply settype0_step; eauto. split; auto.
  - left. destruct T as [-> | ->]; reflexivity.
  - intro E. exfalso. destruct T; congruence.
  - discriminate.
Qed.
Lemma server_become_type : forall h i sv req s s', server_become h i sv req s = Ok true s' -> cfact h (fun c => cl_type c = T_UNKNOWNSERVER) s'.
Proof.
  intros h i sv req s s' H. unfold server_become in H.
  bd H as u1 s1 H1. bd H as u2 s2 H2. bd H as u3 s3 H3. bd H as tok s4 H4. bd H as ok s5 H5. destruct ok; cbn [negb] in H; [|apply ret_ok in H; destruct H; discriminate].
  bd H as gp s6 H6. bd H as u7 s7 H7. bd H as u8 s8 H8. rdret H. destruct u8. pose proof (Client_SetType_ok _ _ _ _ H8) as (c & _ & _ & _ & Hc & _).
  destruct (SetType_type _ _ _ _ H8 _ Hc) as (c' & Hc' & T & _). exists c'. auto.
Qed.
Lemma server_register_step : forall h i req s a s' c, server_register h i req s = Ok a s' -> attached h s ->
  assoc h (s_heap s) = Some c -> cl_conn c = Some i -> cl_type c = T_GOTPASS \/ cl_type c = T_GOTPASS_2813 -> X s s'.
Proof.
  intros h i req s a s' c H At Hc Hi T. unfold server_register in H. cbv zeta in H. destruct (negb (argc req =? 2) && negb (argc req =? 3)); [xlast H|].
  bd H as o s1 H1. same H1. destruct o as [n|]; [|xlast H]. bd H as sv s1 H1. same H1. bd H as pwd s1 H1. same H1.
  destruct (negb (beq pwd (sv_pwd_in sv))); [xlast H|].
  apply and_then_ok in H. destruct H as (x & s1 & H1 & [[-> H]|[-> [-> ->]]]); [|xlast H1].
  pose proof (CheckID_free _ h _ _ _ H1) as F. apply CheckID_ok in H1. destruct H1 as (-> & _).
  apply and_then_ok in H. destruct H as (x & s1 & H1 & H). xstep s1 H1. destruct H as [[-> H]|[-> [-> ->]]]; [|reflexivity].
  assert (K : ksame s s1). { unfold Conf_SetServer in H1. bd H1 as sv1 s2 H2. same H2. match type of H1 with (if ?b then _ else _) _ = _ => destruct b end; [|xlast H1].
    bd H1 as u s2 H2. apply ret_ok in H1. destruct H1; discriminate. }
  destruct (ks_cli _ _ _ _ K Hc) as (c1 & Hc1 & (E1 & _ & E2 & E3 & _)). apply (ks_attached _ _ _ K) in At. apply (kstable_id_free _ _ _ _ K) in F.
  rewrite <- E2 in T. rewrite <- E3 in Hi. clear K H1.
  apply and_then_ok in H. destruct H as (x & s2 & H1 & H). transitivity s2. { apply (ps (l := L_register)). eapply p_register; eauto. }
  destruct H as [[-> H]|[-> [-> ->]]]; [|reflexivity]. apply server_become_type in H1.
  bd H as hf s3 H3. same H3. destruct hf; [xlast H|]. eapply ENDOFMOTD_relp; [|exact H]. destruct H1 as (c2 & Hc2 & T2). exists c2. auto.
Qed.
Lemma server_introduce_step : forall h i req s a s', server_introduce h i req s = Ok a s' -> srv_link h s -> X s s'.
Proof.
  intros h i req s a s' H L. unfold server_introduce in H. cbv zeta in H. destruct (negb (argc req =? 4)); [xlast H|].
  apply and_then_ok in H. destruct H as (x & s1 & H1 & [[-> H]|[-> [-> ->]]]); [|xlast H1].
  pose proof (CheckID_free _ (s_next s) _ _ _ H1) as F. apply CheckID_ok in H1. destruct H1 as (-> & _).
  destruct (rq_prefix req); [|xlast H]. bd H as o s1 H1. same H1. destruct o as [from|]; [|xlast H].
  bd H as c s1 H1. transitivity s1; [|xlast H]. apply (ps (l := L_new)). eapply p_new; [apply link_intro_self; exact L|auto|exact F|exact H1].
Qed.
Lemma IRC_SERVER_relp : forall h req, relp (attached h) X (IRC_SERVER h req).
Proof.
  intros h req s a s' L H. unfold IRC_SERVER in H. bd H as c s1 H1. rdcli H1. destruct (cl_conn c) eqn:Ec; [|xlast H].
  destruct (cl_type c) eqn:T; try xlast H; try (eapply server_register_step; eauto; fail).
  eapply server_introduce_step; eauto. split; auto. exists c. auto.
Qed.

(** ---- the dispatcher ---- *)
Lemma Handle_Numeric_relp : forall h req, relp (cfact h (fun c => cl_type c = T_SERVER \/ cl_type c = T_UNKNOWNSERVER)) X (Handle_Numeric h req).
Proof.
  intros h req s a s' L H. unfold Handle_Numeric in H. bd H as o s1 H1. assert (s1 = s). { destruct (0 <? argc req); [destruct (beq (arg req 0) (B "*"))|]; same H1; reflexivity. }
  subst s1. destruct o; [|xlast H]. cbv zeta in H. destruct (heq h0 This_Server); [|xlast H].
  destruct (atoi (rq_command req) =? 5)%Z; [xlast H|]. destruct (atoi (rq_command req) =? 20)%Z; [xlast H|]. destruct (atoi (rq_command req) =? 376)%Z; [|xlast H].
  eapply ENDOFMOTD_relp; eauto.
Qed.
Lemma GetClient_attached : forall i s o s' h s2, Conn_GetClient i s = Ok o s' -> nonnull o s' = Ok h s2 -> s2 = s /\ attached h s.
Proof.
  intros i s o s' h s2 H H2. unfold Conn_GetClient in H. bd H as c s1 H1. apply con_ok in H1. destruct H1 as [-> H1]. apply ret_ok in H. destruct H as [-> ->].
  apply nonnull_ok in H2. destruct H2 as [E ->]. split; auto. destruct H1 as [H1|[_ ->]]; [|discriminate E]. exists i, c. auto.
Qed.
(** the result of Validate_Prefix *)
Lemma Validate_Prefix_ok : forall i req s v s', Validate_Prefix i req s = Ok v s' ->
  match v with inr req' => s' = s /\ exists h, Conn_GetClient i s = Ok (Some h) s /\ cmd_pre h req' s | inl _ => True end.
Proof.
  intros i req s v s' H. unfold Validate_Prefix in H. bd H as o s1 H1. bd H as h s2 H2. destruct (GetClient_attached _ _ _ _ _ _ H1 H2) as [-> At].
  assert (G : Conn_GetClient i s = Ok (Some h) s). { apply nonnull_ok in H2. destruct H2 as [-> <-]. exact H1. }
  bd H as t s3 H3. same H3. bd H as cn s3 H3. same H3. destruct (rq_prefix req) as [p|] eqn:P.
  - destruct (negb (is_registered t)). { apply ret_ok in H. destruct H as [-> ->]. split; auto. exists h. split; auto. split; auto. exact I. }
    bd H as c s3 H3. pose proof (Client_Search_ok _ _ _ _ H3) as [-> _]. destruct c as [c|].
    + bd H as nh s3 H4. assert (s3 = s). { unfold Client_NextHop in H4. bd H4 as n sx Hx. rdgets Hx. eapply NextHop_ok; eauto. } subst s3.
      destruct (heq nh h) eqn:E; cbn [negb] in H.
      * apply ret_ok in H. destruct H as [-> ->]. split; auto. exists h. split; auto. split; auto. unfold prefix_ok. rewrite P. exists c. unfold heq in E. apply Nat.eqb_eq in E. subst. auto.
      * destruct (negb (ctype_eqb t T_SERVER)); [bd H as u s3 H5|]; apply ret_ok in H; destruct H as [-> _]; exact I.
    + destruct (negb (ctype_eqb t T_SERVER)); [bd H as ok s3 H5; bd H as u s4 H6|]; apply ret_ok in H; destruct H as [-> _]; exact I.
  - match type of H with (if ?b then _ else _) _ = _ => destruct b end.
    + bd H as ok s3 H5. apply ret_ok in H; destruct H as [-> _]; exact I.
    + apply ret_ok in H. destruct H as [-> ->]. split; auto. exists h. split; auto. split; auto. unfold prefix_ok. rewrite P. exact I.
Qed.
Lemma Validate_Prefix_rel : forall i req, rel X (Validate_Prefix i req).
Proof. intros. unfold Validate_Prefix; rel_auto. Qed.
Lemma prefix_ok_kstable : forall h req, kstable (cmd_pre h req).
Proof.
  intros h req s s' K [A P]. split; [eapply ks_attached; eauto|]. unfold prefix_ok in *. destruct (rq_prefix req); auto.
  destruct P as (x & P1 & P2). exists x. split; [eapply ks_Client_Search; eauto|eapply ks_Client_NextHop; eauto].
Qed.
Lemma IRC_QUIT_HTTP_relp : forall h req, relp (cmd_pre h req) X (IRC_QUIT_HTTP h req).
Proof.
  intros h req. unfold IRC_QUIT_HTTP. eapply relp_weaken; [|apply IRC_QUIT_relp]. intros s [_ P]. unfold prefix_ok in *. cbn [rq_prefix]. exact P.
Qed.
Lemma commands_rel : Forall (fun c => forall h req, relp (cmd_pre h req) X (cm_fun c h req)) My_Commands.
Proof.
  assert (W : forall h req, forall s, cmd_pre h req s -> attached h s) by (intros h req s [A B]; exact A).
  assert (W' : forall h req, forall s, cmd_pre h req s -> prefix_ok h req s) by (intros h req s [A B]; exact B).
  unfold My_Commands. repeat match goal with
  | |- Forall _ [] => constructor
  | |- Forall _ (mkCommand _ ?f _ _ _ _ :: _) => constructor; [change (forall h req, relp (cmd_pre h req) X (f h req)); intros h req|]
  | |- relp _ _ (IRC_NICK _ _) => exact (relp_weaken _ _ _ _ _ (W h req) (IRC_NICK_relp h req))
  | |- relp _ _ (IRC_SERVICE _ _) => exact (relp_weaken _ _ _ _ _ (W h req) (IRC_SERVICE_relp h req))
  | |- relp _ _ (IRC_SERVER _ _) => exact (relp_weaken _ _ _ _ _ (W h req) (IRC_SERVER_relp h req))
  | |- relp _ _ (IRC_QUIT _ _) => exact (relp_weaken _ _ _ _ _ (W' h req) (IRC_QUIT_relp h req))
  | |- relp _ _ (IRC_QUIT_HTTP _ _) => apply IRC_QUIT_HTTP_relp
  | |- relp _ _ (IRC_PASS _ _) => apply rel_relp; apply IRC_PASS_rel
  | |- relp _ _ (IRC_SVSNICK _ _) => apply rel_relp; apply IRC_SVSNICK_rel
  | |- relp _ _ (IRC_USER _ _) => apply rel_relp; apply IRC_USER_rel
  | |- relp _ _ (IRC_PONG _ _) => apply rel_relp; apply IRC_PONG_rel
  | |- relp _ _ (IRC_CAP _ _) => apply rel_relp; apply IRC_CAP_rel
  | |- relp _ _ _ => apply rel_relp; rel_auto
  end.
Qed.
Lemma cmd_penalty : forall cmd, In cmd My_Commands -> (0 <= cm_penalty cmd)%Z.
Proof. intros cmd H. unfold My_Commands in H. repeat (destruct H as [<-|H]; [discriminate|]). contradiction. Qed.
Lemma run_command_relp : forall h t cmd req, In cmd My_Commands -> relp (cmd_pre h req) X (run_command h t cmd req).
Proof.
  intros h t cmd req Hin s a s' P H. pose proof (cmd_penalty _ Hin) as Hp. unfold run_command in H. destruct (negb (type_in t (cm_types cmd))); [xlast H|].
  bd H as u s1 H1. xstep s1 H1. assert (K : ksame s s1) by xlast H1.
  match type of H with (if ?b then _ else _) _ = _ => destruct b end; [xlast H|].
  bd H as v s2 H2. xstep s2 H2. assert (K2 : ksame s1 s2) by xlast H2.
  pose proof commands_rel as F. rewrite Forall_forall in F. eapply F; eauto. eapply prefix_ok_kstable; [|exact P]. etransitivity; eauto.
Qed.
Lemma Handle_Request_relp : forall i req h s a s', Handle_Request i req s = Ok a s' -> Conn_GetClient i s = Ok (Some h) s -> cmd_pre h req s -> X s s'.
Proof.
  intros i req h s a s' H G P. unfold Handle_Request in H. bd H as o s1 H1. rewrite G in H1. inversion H1; subst o s1. clear H1.
  bd H as h' s1 H1. apply ret_ok in H1. destruct H1 as [-> ->]. bd H as t s1 H1. apply Client_Type_ok in H1. destruct H1 as (-> & c & Hc & ->).
  match type of H with (if ?b then _ else _) _ = _ => destruct b eqn:E end.
  - eapply Handle_Numeric_relp; [|exact H]. exists c. split; auto. rewrite !andb_true_iff, orb_true_iff in E. destruct E as [[[E|E] _] _]; apply ctype_eqb_eq in E; auto.
  - destruct (find _ My_Commands) as [cmd|] eqn:F; [|xlast H]. apply find_some in F. destruct F as [F _]. eapply run_command_relp; eauto.
Qed.
Lemma Parse_Request_rel : forall i text, rel X (Parse_Request i text).
Proof.
  intros i text s a s' H. unfold Parse_Request in H. cbv zeta in H. bd H as sc s1 H1. same H1. destruct (sc && ScrubCTCP (trim text)); [xlast H|].
  destruct (parse_line (trim text)); [|xlast H]. bd H as v s1 H1. pose proof (Validate_Prefix_ok _ _ _ _ _ H1) as V. destruct v as [cl|req].
  - transitivity s1; [eapply Validate_Prefix_rel; eauto|xlast H].
  - destruct V as (-> & h & G & P). eapply Handle_Request_relp; eauto.
Qed.
#[local] Hint Extern 0 (rel _ (Parse_Request _ _)) => apply Parse_Request_rel : rel.
Context {P_read : PS L_read X}.
Lemma upd_cread_rel : forall i f, (forall c, cread c (f c)) -> rel X (upd_con i f).
Proof. intros i f Hf s a s' Hr. apply upd_con_ok in Hr. subst. apply (ps (l := L_read)). apply (p_read s i f Hf). Qed.
#[local] Hint Extern 3 (rel _ (upd_con _ _)) => (apply upd_cread_rel; intros []; split; reflexivity) : rel.
Lemma handle_lines_rel : forall n i done, rel X (handle_lines n i done).
Proof. induction n; intros; cbn [handle_lines]; rel_go. Qed.
#[local] Hint Extern 0 (rel _ (handle_lines _ _ _)) => apply handle_lines_rel : rel.
Lemma Handle_Buffer_rel : forall i, rel X (Handle_Buffer i).
Proof. intros. unfold Handle_Buffer; rel_auto. Qed.
#[local] Hint Extern 0 (rel _ (Handle_Buffer _)) => apply Handle_Buffer_rel : rel.
#[local] Hint Extern 4 (rel _ (upd_con _ _)) => (apply upd_cread_rel; intros c; match goal with |- context [set_co_bps 0 _] => idtac end;
  destruct (negb (co_lastdata c =? _)%Z); split; destruct c; reflexivity) : rel.
Lemma Read_Data_rel : forall i data, rel X (Read_Data i data).
Proof. intros. unfold Read_Data; rel_auto. Qed.
#[local] Hint Extern 0 (rel _ (Read_Data _ _)) => apply Read_Data_rel : rel.
Lemma Main_Loop_rel : rel X Main_Loop.
Proof. unfold Main_Loop; rel_auto. Qed.
#[local] Hint Extern 0 (rel _ Main_Loop) => apply Main_Loop_rel : rel.
(** events that do not open a connection *)
Definition opens (e : event) : bool := match e with E_Accept _ _ _ | E_NewServer _ _ _ => true | _ => false end.
Lemma step_rel_quiet : forall e, opens e = false -> rel X (step e).
Proof.
  intros e O s a s' H. unfold step in H. destruct e; try discriminate O; [|xlast H..].
  apply modify_ok in H. subst. apply (ps (l := L_time)). apply p_time.
Qed.
(** every reaction to an event is a sequence of elementary changes *)
Theorem step_rel : forall e, rel X (step e).
Proof.
  intros e s a s' H. unfold step in H. destruct e.
  - apply modify_ok in H. subst. apply (ps (l := L_time)). apply p_time.
  - bd H as u s1 H1. unfold unused in H1. rdgets H1. unfold whenM in H. destruct (assoc i (s_conns s)) eqn:E; cbn [is_some negb] in H; [rdret H; reflexivity|].
    destruct a. apply (ps (l := L_accept)). eapply p_accept; eauto.
  - xlast H.
  - xlast H.
  - xlast H.
  - xlast H.
  - xlast H.
  - bd H as u s1 H1. unfold unused in H1. rdgets H1. bd H as m s1 H1. rdgets H1. unfold whenM in H. destruct (assoc i (s_conns s)) eqn:E; cbn [is_some negb andb] in H; [rdret H; reflexivity|].
    destruct (n <? List.length (s_servers s)); [|rdret H; reflexivity]. destruct a. apply (ps (l := L_newserver)). eapply p_newserver; eauto.
  - xlast H.
Qed.
(** the chores need few of them *)
Lemma chore_rel : forall s s', chore s s' -> X s s'.
Proof.
  intros s s' H. destruct H as [i log fwd inform s s' H|i f s s' F H|i h s s' H|i b s s' H|s s' H].
  - xlast H.
  - revert H. apply upd_cread_rel. intro c. destruct (F c) as (A & B' & C & D & E). split; auto.
  - xlast H.
  - xlast H.
  - xlast H.
Qed.
(** and so do the events in which no line is executed *)
Definition silent (e : event) : bool := match e with E_Data _ _ | E_Loop => false | _ => true end.
Lemma step_rel_silent : forall e, silent e = true -> rel X (step e).
Proof.
  intros e S s a s' H. unfold step in H. destruct e; try discriminate S.
  - apply modify_ok in H. subst. apply (ps (l := L_time)). apply p_time.
  - bd H as u s1 H1. unfold unused in H1. rdgets H1. unfold whenM in H. destruct (assoc i (s_conns s)) eqn:E; cbn [is_some negb] in H; [rdret H; reflexivity|].
    destruct a. apply (ps (l := L_accept)). eapply p_accept; eauto.
  - xlast H.
  - xlast H.
  - xlast H.
  - bd H as u s1 H1. unfold unused in H1. rdgets H1. bd H as m s1 H1. rdgets H1. unfold whenM in H. destruct (assoc i (s_conns s)) eqn:E; cbn [is_some negb andb] in H; [rdret H; reflexivity|].
    destruct (n <? List.length (s_servers s)); [|rdret H; reflexivity]. destruct a. apply (ps (l := L_newserver)). eapply p_newserver; eauto.
  - xlast H.
Qed.
(** and so is every action *)
Theorem action_rel : forall s s', action s s' -> X s s'.
Proof.
  intros s s' H. destruct H as [i text b s s' H|s s' H]; [revert H; apply Parse_Request_rel|].
  destruct H as [i log fwd inform s s' H|i f s s' F H|i h s s' H|i b s s' H|s s' H].
  - xlast H.
  - revert H. apply upd_cread_rel. intro c. destruct (F c) as (A & B' & C & D & E). split; auto.
  - xlast H.
  - xlast H.
  - xlast H.
Qed.
End R.
