(** Composite changes: the removal of clients, closing, accepting and opening connections. *)
From Coq Require Import List Ascii String ZArith NArith Bool Lia.
From Coq Require Import Relations RelationClasses.
From Verif Require Import Bytes Strl Match Lists Hash ParseReq State Messages Monad Core Write Info Chan Mode Msg Login Oper Server Dispatch Conn Rel RelWrite RelInfo RelBase RelChan RelSrv RelInit RelKey RelCmd.
Import ListNotations.
Local Open Scope m_scope.

(** ---- removal ---- *)
Definition same_cl (s s' : state) : Prop := s_clients s' = s_clients s.
#[export] Instance same_cl_po : PreOrder same_cl.
Proof. split; [intro s; reflexivity|]. intros a b c H1 H2. unfold same_cl in *. congruence. Qed.
#[export] Instance same_cl_wr : WrSub same_cl.
Proof. intros s s' H. destruct H; reflexivity. Qed.
#[export] Instance same_cl_whowas : PS L_whowas same_cl.
Proof.
  intros s s' H. inversion H; subst. apply RegisterWhowas_ok in H0. destruct H0 as (s1 & W & E).
  transitivity s1; [apply wr_incl; auto; exact _|]. destruct E as [-> | (sl & e & _ & ->)]; reflexivity.
Qed.
#[export] Instance same_cl_delmb : PS L_delmb same_cl.
Proof. intros s s' H. inversion H; subst. reflexivity. Qed.
#[export] Instance same_cl_delchan : PS L_delchan same_cl.
Proof. intros s s' H. inversion H; subst. reflexivity. Qed.

Section D.
Context {X : state -> state -> Prop} {PO : PreOrder X} {WS : WrSub X}.
Context {P_whowas : PS L_whowas X} {P_delmb : PS L_delmb X} {P_delchan : PS L_delchan X} {P_unlink : PS L_unlink X} {P_free : PS L_free X}.
Lemma Destroy_Found_rel : forall h txt fwd sq, rel X (Destroy_Found h txt fwd sq).
Proof.
  intros h txt fwd sq s a s' H. unfold Destroy_Found in H. bd H as u s1 H1. apply modify_ok in H1. subst s1.
  transitivity (set_s_clients (unlink h (s_clients s)) s). { apply (ps (l := L_unlink)). apply p_unlink. }
  assert (N : ~ In h (s_clients (set_s_clients (unlink h (s_clients s)) s))).
  { cbn [s_clients set_s_clients]. unfold unlink. rewrite filter_In. intros [_ N]. unfold heq in N. rewrite Nat.eqb_refl in N. discriminate. }
  set (s1 := set_s_clients (unlink h (s_clients s)) s) in *. clearbody s1.
  bd H as c s2 H2. rdcli H2. bd H as v s2 H3. assert (E : same_cl s1 s2) by xlast H3. xstep s2 H3.
  rewrite <- E in N. clear H3 E. pose proof H as H4. unfold Free_Client in H4. bd H4 as c2 s3 H5. rdcli H5. clear H4. destruct a.
  apply (ps (l := L_free)). eapply p_free; eauto.
Qed.
Lemma destroy_rel : forall n h log fwd sq, rel X (destroy n h log fwd sq).
Proof.
  induction n; intros h log fwd sq; cbn [destroy]; [rel_auto|].
  assert (R : forall h txt fwd sq, rel X (Destroy_Found h txt fwd sq)) by (intros; apply Destroy_Found_rel).
  rel_go; auto.
Qed.
Lemma Client_Destroy_rel : forall h log fwd sq, rel X (Client_Destroy h log fwd sq).
Proof. intros. unfold Client_Destroy. apply rel_bind; [rel_auto|intro n]. apply destroy_rel. Qed.
End D.
#[export] Hint Extern 1 (rel _ (Client_Destroy _ _ _ _)) => apply Client_Destroy_rel : rel.
Section C.
Context {X : state -> state -> Prop} {PO : PreOrder X} {WS : WrSub X}.
Context {P_whowas : PS L_whowas X} {P_delmb : PS L_delmb X} {P_delchan : PS L_delchan X} {P_unlink : PS L_unlink X} {P_free : PS L_free X}.
Context {P_coclose : PS L_coclose X} {P_codel : PS L_codel X} {P_sv : PS L_sv X}.
Lemma closing_rel : forall i, rel X (upd_con i (set_co_closing true)).
Proof. intros i s a s' H. apply upd_con_ok in H. subst. apply (ps (l := L_coclose)). apply (p_closing s i). Qed.
Lemma closed_rel : forall i, rel X (upd_con i (set_co_open false)).
Proof. intros i s a s' H. apply upd_con_ok in H. subst. apply (ps (l := L_coclose)). apply (p_closed s i). Qed.
#[local] Hint Resolve closing_rel closed_rel : rel.
Lemma Conn_Close_prim : forall i log fwd inform, rel X (Conn_Close i log fwd inform).
Proof.
  intros i log fwd inform s a s' H. unfold Conn_Close in H. bd H as c s1 H1. same H1. destruct (co_closing c); [xlast H|].
  bd H as u s1 H1. same H1. bd H as u1 s1 H1. xstep s1 H1. bd H as o s2 H2. same H2. bd H as u2 s2 H2. xstep s2 H2. bd H as u3 s3 H3. xstep s3 H3.
  bd H as u4 s4 H4. xstep s4 H4. bd H as u5 s5 H5. xstep s5 H5. bd H as n s6 H6. rdgets H6. bd H as u7 s7 H7. apply modify_ok in H7. subst s7.
  bd H as u8 s8 H8. apply assertM_ok in H8. destruct H8 as [_ ->]. apply modify_ok in H. subst s'. apply (ps (l := L_codel)). apply (p_codel s5 i).
Qed.
#[export] Instance close_prim : PS L_close X.
Proof. intros s s' H. inversion H; subst. eapply Conn_Close_prim; eauto. Qed.
#[export] Instance destroy_prim : PS L_destroy X.
Proof. intros s s' H. inversion H; subst. eapply Client_Destroy_rel; eauto. Qed.
End C.

(** ---- a peer registers as a server ---- *)
Section G.
Context {X : state -> state -> Prop} {PO : PreOrder X} {WS : WrSub X}.
Context {P_idany : PS L_idany X} {P_meta : PS L_attr X} {P_intro : PS L_intro X} {P_conn : PS L_conn X} {P_type0 : PS L_type0 X} {P_close : PS L_close X}.
#[local] Hint Extern 0 (rel _ (Conn_Close _ _ _ _)) => apply Conn_Close_rel : rel.
#[export] Instance register_prim : PS L_register X.
Proof.
  intros s s' H. inversion H; subst. rename H0 into Hc, H1 into Hi, H2 into At, H3 into T, H4 into F, H5 into R. clear H.
  unfold server_become in R. bd R as u1 s1 H1. unfold Client_SetID in H1. bd H1 as u s0 H0. unfold cf in H0. rdgets H0. apply upd_cli_ok in H1. destruct H1 as (c0 & Hc0 & ->).
  transitivity (set_cli h (set_id (cf_cloakusertonick (s_conf s)) (arg req 0)) s). { apply (ps (l := L_idany)). apply (p_idany s h c); auto. destruct T as [T|T]; rewrite T; reflexivity. }
  assert (C1 : cfact h (fun c => cl_conn c = Some i /\ (cl_type c = T_GOTPASS \/ cl_type c = T_GOTPASS_2813)) (set_cli h (set_id (cf_cloakusertonick (s_conf s)) (arg req 0)) s)).
  { eexists. split. { unfold set_cli. cbn [s_heap set_s_heap]. rewrite assoc_aupd, Nat.eqb_refl, Hc. reflexivity. }
    unfold set_id. cbv zeta. destruct (cf_cloakusertonick (s_conf s)); cbn; auto. }
  change (set_s_heap (aupd h (set_id (cf_cloakusertonick (s_conf s)) (arg req 0)) (s_heap s)) s) with (set_cli h (set_id (cf_cloakusertonick (s_conf s)) (arg req 0)) s) in R.
  set (s1 := set_cli h _ s) in *. clearbody s1. clear Hc0 c0 Hc Hi At T F.
  assert (KS : forall s s' (P : client -> Prop), (forall c c', ckey c c' -> P c -> P c') -> ksame s s' -> cfact h P s -> cfact h P s').
  { intros a b0 P HP K (c1 & Hc1 & Hp). destruct (ks_cli _ _ _ _ K Hc1) as (c2 & Hc2 & Hk). exists c2. eauto. }
  assert (KP : forall c c', ckey c c' -> cl_conn c = Some i /\ (cl_type c = T_GOTPASS \/ cl_type c = T_GOTPASS_2813) -> cl_conn c' = Some i /\ (cl_type c' = T_GOTPASS \/ cl_type c' = T_GOTPASS_2813)).
  { intros a a' (_ & _ & E1 & E2 & _). rewrite E1, E2. auto. }
  bd R as u2 s2 H2. xstep s2 H2. assert (K : ksame s1 s2) by xlast H2. apply (KS _ _ _ KP K) in C1. clear K H2.
  bd R as u3 s3 H3. xstep s3 H3. assert (K : ksame s2 s3) by xlast H3. apply (KS _ _ _ KP K) in C1. clear K H3.
  bd R as tok s4 H4. same H4. bd R as ok s5 H5.
  assert (C2 : X s3 s5 /\ (ok = true -> cfact h (fun c => cl_conn c = Some i /\ (cl_type c = T_GOTPASS \/ cl_type c = T_GOTPASS_2813)) s5)).
  { destruct (negb (tok =? -2)%Z).
    - bd H5 as oc t1 H1. same H1. bd H5 as na t1 H1. same H1. bd H5 as inf t1 H1. same H1. bd H5 as ok2 t1 H1.
      split.
      + xstep t1 H1. assert (K : ksame s3 t1) by xlast H1. apply (KS _ _ _ KP K) in C1. clear K H1. destruct (negb ok2); [xlast H5|].
        bd H5 as v t2 H2. unfold Client_SetIntroducer in H2. apply upd_cli_ok in H2. destruct H2 as (c2 & Hc2 & ->).
        transitivity (set_cli h (set_cl_introducer (Some h)) t1); [|xlast H5].
        apply (ps (l := L_intro)). destruct C1 as (c3 & Hc3 & Hi & _). eapply p_intro; eauto.
      + intros ->. assert (K : ksame s3 t1) by xlast H1. apply (KS _ _ _ KP K) in C1. clear K H1. destruct (negb ok2). { bd H5 as v t2 H2. apply ret_ok in H5. destruct H5; discriminate. }
        bd H5 as v t2 H2. unfold Client_SetIntroducer in H2. apply upd_cli_ok in H2. destruct H2 as (c2 & Hc2 & ->).
        change (set_s_heap (aupd h (set_cl_introducer (Some h)) (s_heap t1)) t1) with (set_cli h (set_cl_introducer (Some h)) t1) in H5.
        assert (K : ksame (set_cli h (set_cl_introducer (Some h)) t1) s5) by xlast H5. eapply (KS _ _ _ KP K).
        eexists. split. { unfold set_cli. cbn [s_heap set_s_heap]. rewrite assoc_aupd, Nat.eqb_refl, Hc2. reflexivity. }
        destruct C1 as (c3 & Hc3 & Hi). assert (c3 = c2) by congruence. subst. exact Hi.
    - split; [xlast H5|]. intros ->. assert (K : ksame s3 s5) by xlast H5. eapply (KS _ _ _ KP K); auto. }
  destruct C2 as [X2 C2]. transitivity s5; auto. clear X2 H5 C1. destruct (negb ok) eqn:Eo; [xlast R|]. destruct ok; [|discriminate]. specialize (C2 eq_refl).
  bd R as gp s6 H6. same H6. bd R as u7 s7 H7.
  assert (S7 : s7 = s5 \/ s7 = set_con i (set_co_rfc1459 true) s5). { unfold whenM in H7. destruct gp; [apply upd_con_ok in H7; auto|]. apply ret_ok in H7. destruct H7; auto. }
  transitivity s7. { destruct S7 as [-> | ->]; [reflexivity|]. apply (ps (l := L_conn)). apply p_conn. intro x. split; reflexivity. }
  assert (K : ksame s5 s7). { destruct S7 as [-> | ->]; [reflexivity|]. apply ksame_set_con. reflexivity. } apply (KS _ _ _ KP K) in C2. clear K H7.
  bd R as u8 s8 H8. rdret R. destruct u8. destruct C2 as (c2 & Hc2 & Hi & T). apply (ps (l := L_type0)). eapply p_type0; [exact Hc2| |left; reflexivity|exact H8].
  split; auto.
  - destruct T as [-> | ->]; auto.
  - destruct T as [-> | ->]; discriminate.
  - discriminate.
  - rewrite Hi. discriminate.
Qed.
End G.

(** ---- new connections ---- *)
(** a client [c] on a new connection [i]; [a], [b], [m], [acc]: statistics, [sv]: the configured servers *)
Definition opened (i : connid) (cn : conn) (h : handle) (c : client) (a b m acc : Z) (sv : list cserver) (s : state) : state :=
  set_s_servers sv (set_s_accepted acc (set_s_numconnmax m (set_s_numconn (s_numconn s + 1)
    (set_s_conns ((i, cn) :: s_conns s) (set_s_maxusers a (set_s_mymaxusers b
      (set_s_clients (h :: s_clients s) (with_new h c s)))))))).

Lemma New_Connection_ok : forall i ip v6 s s', New_Connection i ip v6 s = Ok tt s' ->
  ~ In (s_next s) (map fst (s_heap s)) -> ~ In (s_next s) (s_clients s) ->
  (exists msg, s' = set_s_out ((i, firstn 511 (B msg) ++ [CR; LF]) :: s_out s) (set_s_accepted (s_accepted s + 1) s) /\
     (((0 < cf_maxconn (s_conf s))%Z /\ (cf_maxconn (s_conf s) <= s_numconn s)%Z) \/
      ((0 < cf_maxconnip (s_conf s))%Z /\ (cf_maxconnip (s_conf s) <= Z.of_nat (List.length (filter (fun p => co_open (snd p) && beq (co_ip (snd p)) ip) (s_conns s))))%Z))) \/
  (exists c a b m x, fresh_client (Some i) This_Server None T_UNKNOWN None None 0 0 s c /\
     ((cf_maxconn (s_conf s) <= 0)%Z \/ (s_numconn s < cf_maxconn (s_conf s))%Z) /\
     ((cf_maxconnip (s_conf s) <= 0)%Z \/ (Z.of_nat (List.length (filter (fun p => co_open (snd p) && beq (co_ip (snd p)) ip) (s_conns s))) < cf_maxconnip (s_conf s))%Z) /\
     List.length x < CLIENT_HOST_LEN /\
     wr (opened i (open_conn (s_now s) ip (strlcpy HOST_LEN (if v6 then B "[" ++ ip ++ B "]" else ip)) (s_next s) false) (s_next s)
           (set_cl_host x c) a b m (s_accepted s + 1) (s_servers s) s) s').
Proof.
  intros i ip v6 s s' H Hf Hf2. unfold New_Connection in H. bd H as u s1 H1. apply modify_ok in H1.
  bd H as mx s2 H2. unfold cf in H2. rdgets H2. bd H as n s2 H2. rdgets H2.
  assert (E1 : s_conf s1 = s_conf s /\ s_numconn s1 = s_numconn s /\ s_conns s1 = s_conns s /\ s_out s1 = s_out s) by (subst s1; auto).
  destruct E1 as (Ec & En & Eo & Eout).
  rewrite Ec, En in H. destruct ((0 <? cf_maxconn (s_conf s)) && (cf_maxconn (s_conf s) <=? s_numconn s))%Z eqn:B1.
  { left. unfold Simple_Message in H. apply modify_ok in H. rewrite Eout in H. subst s1. eexists. split; [exact H|]. left. rewrite andb_true_iff in B1. lia. }
  bd H as mi s2 H2. unfold cf in H2. rdgets H2. bd H as cnt s2 H2. unfold Count_Connections in H2. rdgets H2. rewrite Ec, Eo in H.
  match type of H with (if ?b then _ else _) _ = _ => destruct b eqn:B2 end.
  { left. unfold Simple_Message in H. apply modify_ok in H. rewrite Eout in H. subst s1. eexists. split; [exact H|]. right. rewrite andb_true_iff in B2. lia. }
  right. bd H as c s2 H2. unfold Client_NewLocal in H2. apply Init_New_Client_ok in H2; [|subst s1; exact Hf|subst s1; exact Hf2].
  destruct H2 as (Eh & c0 & a & b & F & E2). assert (En1 : s_next s1 = s_next s) by (subst s1; reflexivity). rewrite En1 in Eh.
  bd H as t s3 H3. unfold now in H3. rdgets H3. assert (Et : s_now s2 = s_now s) by (subst; reflexivity). rewrite Et in H. cbv zeta in H.
  set (host := strlcpy HOST_LEN (if v6 then _ else _)) in *.
  bd H as u4 s4 H4. unfold Register_Connection in H4. apply modify_ok in H4.
  bd H as u5 s5 H5. assert (E5 : exists x, List.length x < CLIENT_HOST_LEN /\ s5 = set_cli c (set_cl_host x) s4).
  { unfold Client_SetHostname in H5. bd H5 as c1 sx Hx. rdcli Hx. bd H5 as ck sx Hy. unfold cf in Hy. rdgets Hy. bd H5 as sa sx Hy. unfold cf in Hy. rdgets Hy. cbv zeta in H5.
    match type of H5 with (if ?b then _ else _) _ = _ => destruct b end; apply upd_cli_ok in H5; destruct H5 as (? & _ & ->); eexists; (split; [|reflexivity]);
      apply strlcpy_len; unfold CLIENT_HOST_LEN; lia. }
  destruct E5 as (x & Lx & E5). clear H5. bd H as u6 s6 H6. unfold Account_Connection in H6. apply modify_ok in H6.
  assert (W : wr s6 s'). { unfold Conn_StartLogin in H. assert (R : rel wr (Conn_StartLogin i)) by (unfold Conn_StartLogin; rel_auto). exact (R _ _ _ H). }
  exists c0, a, b. eexists. exists x. split. { destruct F; split; auto. rewrite fr_time. subst s1; reflexivity. }
  split. { apply andb_false_iff in B1. lia. } split. { apply andb_false_iff in B2. lia. } split; [exact Lx|].
  replace (opened _ _ _ _ _ _ (if (s_numconnmax s <? s_numconn s + 1)%Z then (s_numconn s + 1)%Z else s_numconnmax s) _ _ _) with s6; [exact W|].
  rewrite H6, E5, H4, E2, H1, Eh. unfold opened, set_cli, with_new. cbn [s_heap set_s_heap set_s_conns set_s_clients set_s_next set_s_maxusers set_s_mymaxusers s_conns s_clients set_s_accepted aupd map fst snd s_numconn s_numconnmax set_s_numconn].
  rewrite Nat.eqb_refl. fold (aupd (s_next s) (set_cl_host x) (s_heap s)). rewrite (aupd_fresh _ _ _ _ Hf).
  destruct (s_numconnmax s <? s_numconn s + 1)%Z; destruct s; reflexivity.
Qed.
Lemma New_Server_ok : forall n i ip s s', New_Server n i ip s = Ok tt s' ->
  ~ In (s_next s) (map fst (s_heap s)) -> ~ In (s_next s) (s_clients s) ->
  s' = s \/
  exists sv c a b m, nth_error (s_servers s) n = Some sv /\ sv_conn sv = None /\
    fresh_client (Some i) This_Server None T_UNKNOWNSERVER None None 0 0 s c /\
    s' = opened i (open_conn (s_now s) ip (sv_host sv) (s_next s) true) (s_next s)
           (set_cl_token (-2) (set_cl_introducer (Some (s_next s)) c)) a b m (s_accepted s) (upd_nth n (set_sv_conn (Some i)) (s_servers s)) s.
Proof.
  intros n i ip s s' H Hf Hf2. unfold New_Server in H. bd H as sv s1 H1. unfold sv_at in H1. bd H1 as o s2 H2. rdgets H2. apply nonnull_ok in H1. destruct H1 as [Hn ->].
  destruct (sv_conn sv) eqn:Ev. { rdret H. auto. } right.
  bd H as c s2 H2. unfold Client_NewLocal in H2. apply Init_New_Client_ok in H2; auto. destruct H2 as (Eh & c0 & a & b & F & E2).
  bd H as u3 s3 H3. unfold Account_Connection in H3. apply modify_ok in H3.
  bd H as u4 s4 H4. unfold Client_SetIntroducer in H4. apply upd_cli_ok in H4. destruct H4 as (c4 & _ & H4).
  bd H as u5 s5 H5. unfold Client_SetToken in H5. apply upd_cli_ok in H5. destruct H5 as (c5 & _ & H5).
  bd H as t s6 H6. unfold now in H6. rdgets H6. bd H as u7 s7 H7. unfold upd_sv in H7. apply modify_ok in H7. unfold Register_Connection in H. apply modify_ok in H.
  assert (Et : s_now s5 = s_now s). { rewrite H5. cbn [s_now set_s_heap]. rewrite H4. cbn [s_now set_s_heap]. rewrite H3, E2. cbv zeta. match goal with |- context [if ?b then _ else _] => destruct b end; reflexivity. }
  exists sv, c0, a, b. eexists. split; [exact Hn|]. split; auto. split; [exact F|]. rewrite Et in H.
  rewrite H, H7, H5, H4, H3, E2, Eh.
  assert (A : forall f, aupd (s_next s) f ((s_next s, c0) :: s_heap s) = (s_next s, f c0) :: s_heap s).
  { intro f. unfold aupd. cbn [map fst snd]. rewrite Nat.eqb_refl. fold (aupd (s_next s) f (s_heap s)). rewrite (aupd_fresh _ _ _ _ Hf). reflexivity. }
  instantiate (1 := (if (s_numconnmax s <? s_numconn s + 1)%Z then (s_numconn s + 1)%Z else s_numconnmax s)).
  unfold opened, with_new. cbn [s_heap set_s_heap set_s_conns set_s_clients set_s_next set_s_maxusers set_s_mymaxusers s_conns s_clients set_s_accepted s_numconn s_numconnmax set_s_numconn].
  destruct (s_numconnmax s <? s_numconn s + 1)%Z; cbn [s_heap set_s_heap set_s_conns set_s_clients set_s_next set_s_maxusers set_s_mymaxusers s_conns s_clients set_s_accepted s_numconn s_numconnmax set_s_numconn set_s_numconnmax s_servers set_s_servers];
  rewrite !A || rewrite A; try (unfold aupd; cbn [map fst snd]; rewrite Nat.eqb_refl; fold (aupd (s_next s) (set_cl_token (-2)) (s_heap s)); rewrite (aupd_fresh _ _ _ _ Hf)); destruct s; reflexivity.
Qed.
