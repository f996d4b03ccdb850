(** What is told when a server introduces a user (C28). *)
From Coq Require Import List Ascii String ZArith NArith Bool Lia Arith.
From Coq Require Import Relations RelationClasses.
From Verif Require Import Bytes Strl Match Lists ListsProofs Hash ParseReq State Messages Monad Core Write Info Chan Mode Msg Login Oper Server Dispatch Conn.
From Verif Require Import Rel RelWrite RelInfo RelBase RelInit RelChan RelSrv RelKey RelCmd RelComp WF RelGone Frame Tree Inv1 Inv2 Inv3 Inv4 Live Spec Observ Unch HandOper HandPrefix HandLine Frames Attrib HandGain HandUser HandChan HandJoin HandKick Output HandDo HandSend SpecMore SpecLink HandCast SpecNick HandNick SpecSync HandSync HandSquit.
Import ListNotations.
Local Open Scope m_scope.

(** the protocol of no connection changes *)
Definition proto (s s' : state) : Prop := forall j, option_map co_rfc1459 (assoc j (s_conns s')) = option_map co_rfc1459 (assoc j (s_conns s)).
#[local] Instance proto_pre : PreOrder proto.
Proof. split; [intros s j; reflexivity|intros a b c H1 H2 j; rewrite (H2 j); apply H1]. Qed.
#[local] Instance proto_wr : WrSub proto.
Proof.
  intros s s' H j. destruct H; try reflexivity; unfold set_con; cbn [s_conns set_s_conns].
  - rewrite assoc_aupd. destruct (Nat.eqb_spec i j) as [<- |]; [|reflexivity]. destruct (assoc i (s_conns s)) as [x|]; [|reflexivity]. cbn [option_map]. f_equal. apply (cm_rfc1459 _ _ (H x)).
  - generalize (s_conns s). intro l. induction l as [|[k x] l IH]; [reflexivity|]. cbn [map assoc fst snd]. destruct (j =? k)%nat; [reflexivity|exact IH].
  - rewrite assoc_aupd. destruct (Nat.eqb_spec i j) as [<- |]; [|reflexivity]. destruct (assoc i (s_conns s)); reflexivity.
Qed.
Lemma write_other' : forall i f l s b s', still (mseq l) -> Conn_WriteStr i f l s = Ok b s' -> view s s' /\ forall j, i <> j -> written s s' j [].
Proof.
  intros i f l s b s' P H. destruct (Conn_WriteStr_ok _ _ _ _ _ _ H) as (v & s3 & M & [W1 W2 W3 W4]). rewrite (P _ _ _ M) in *. split; auto. intros j NE. destruct b; [|apply written_nil; exact W4]. pose proof (written_one _ _ _ _ W4 j) as W. destruct (Nat.eqb_spec i j); [contradiction|exact W].
Qed.
(** a line of another client written to a directly linked server *)
Lemma link_line1 : forall to x j pref fc f l vals s b s', tree s -> assoc to (s_heap s) = Some x -> cl_type x = T_SERVER -> cl_conn x = Some j -> assoc pref (s_heap s) = Some fc -> mseq l s = Ok vals s ->
  IRC_WriteStrClientPrefix to pref f l s = Ok b s' -> view s s' /\ (forall k, j <> k -> written s s' k []) /\ (is_open s j = true -> written s s' j [on_wire (prefixed (id_of fc) (fmt (B f) vals))]).
Proof.
  intros to x j pref fc f l vals s b s' T A TS CJ AF M H. destruct (WriteStrClientPrefix_ok _ _ _ _ _ _ _ H) as (v2 & s1 & nh & c1 & i1 & p & s2 & M1 & N & B1 & B2 & G & [W1 W2 W3 W4]).
  rewrite M in M1. injection M1 as <- <-. assert (nh = to) by (eapply local_hop; eauto). subst nh. rewrite A in B1. injection B1 as <-. rewrite CJ in B2. injection B2 as <-.
  unfold Get_Prefix in G. bd G as t s3 G1. apply is_type_ok in G1. destruct G1 as (-> & c1 & D1 & ->). rewrite A in D1. injection D1 as <-. rewrite TS in G. cbn in G. apply Client_ID_ok in G. destruct G as [-> (pc & G1 & ->)]. rewrite AF in G1. injection G1 as <-.
  split; auto. split.
  - intros k NE. destruct b; [|apply written_nil; exact W4]. pose proof (written_one _ _ _ _ W4 k) as W. destruct (Nat.eqb_spec j k); [contradiction|exact W].
  - intro OP. rewrite OP in W3. subst b. pose proof (written_one _ _ _ _ W4 j) as W. rewrite Nat.eqb_refl in W. exact W.
Qed.
Definition intro_line (x d fc p : client) : bytes := prefixed (id_of fc) ((if ctype_eqb (cl_type d) T_SERVICE && memb "S" (cl_flags x) then service_text else nick_text) d (cl_mytoken p)).
#[local] Hint Extern 0 (HandSync.still _) => stl : core.
Lemma announce_one : forall to x j u d q p pref fc s b s', tree s -> assoc to (s_heap s) = Some x -> cl_type x = T_SERVER -> cl_conn x = Some j -> assoc u (s_heap s) = Some d -> a_usr d -> cl_introducer d = Some q -> assoc q (s_heap s) = Some p ->
  cl_cloaked d = None -> cl_account d = None -> assoc pref (s_heap s) = Some fc -> Client_Announce to pref u s = Ok b s' ->
  view s s' /\ (forall k, j <> k -> written s s' k []) /\ (is_open s j = true -> option_map co_rfc1459 (assoc j (s_conns s)) = Some false -> written s s' j [on_wire (intro_line x d fc p)]).
Proof.
  intros to x j u d q p pref fc s b s' T A TS CJ AU UD IQ AQ NCL NAC AF H. unfold Client_Announce in H. bd H as u0 s1 H1. apply cli_ok in H1. destruct H1 as [U ->]. rewrite AU in U. injection U as <-. bd H as t s1 H1. apply cli_ok in H1. destruct H1 as [U ->]. rewrite A in U. injection U as <-.
  rewrite CJ in H. bd H as un s1 H1. unfold Client_User in H1. bd H1 as c1 s2 H2. apply cli_ok in H2. destruct H2 as [H2 ->]. rewrite AU in H2. injection H2 as <-. apply ret_ok in H1. destruct H1 as [Eu ->].
  bd H as j0 s1 H1. apply nonnull_ok in H1. destruct H1 as [H1 ->]. injection H1 as <-. bd H as cn s1 H1. apply con_ok in H1. destruct H1 as [-> H1].
  destruct (tr_h2c _ T _ _ _ A CJ) as (cn0 & K1 & _). destruct H1 as [H1|[H1 _]]; [|congruence]. rewrite K1 in H1. injection H1 as <-. rewrite K1. cbn [option_map].
  bd H as ok s1 H1.
  assert (E : s' = s1). { destruct ok; cbn [negb] in H; [|apply ret_ok in H; apply H]. rewrite NCL, NAC in H. destruct (strchr0 "M" (cl_flags x)); [|apply ret_ok in H; apply H]. bd H as a s2 H2. apply ret_ok in H2. destruct H2 as [-> ->]. cbn [negb] in H. apply ret_ok in H. apply H. }
  subst s1. clear H. destruct (co_rfc1459 cn0) eqn:ER.
  - (* the old protocol *)
    assert (G : view s s' /\ forall k, j <> k -> written s s' k []); [|destruct G; split; auto; split; auto; intros _ X; discriminate X].
    bd H1 as a s2 H2. eapply write_other' in H2; [|solve [auto]]. destruct H2 as [V2 W2]. destruct a; cbn [negb] in H1; [|apply ret_ok in H1; destruct H1 as [_ ->]; auto].
    bd H1 as in_ s4 H3. assert (s4 = s2). { unfold Client_Introducer in H3. bd H3 as c1 s5 H5. apply cli_ok in H5. destruct H5 as [_ ->]. apply nonnull_ok in H3. apply H3. } subst s4. clear H3.
    bd H1 as a s4 H4. eapply write_other' in H4; [|solve [auto]]. destruct H4 as [V4 W4]. assert (V : view s s4) by (transitivity s2; auto). assert (W : forall k, j <> k -> written s s4 k []) by (intros k NE; change (@nil bytes) with (@nil bytes ++ []); eapply written_app; [apply W2; exact NE|apply W4; exact NE]).
    destruct a; cbn [negb] in H1; [|apply ret_ok in H1; destruct H1 as [_ ->]; auto]. destruct (negb (beq (cl_modes d) [])); [|apply ret_ok in H1; destruct H1 as [_ ->]; auto].
    eapply write_other' in H1; [|solve [auto]]. destruct H1 as [V5 W5]. split; [transitivity s4; auto|]. intros k NE. change (@nil bytes) with (@nil bytes ++ []). eapply written_app; [apply W; exact NE|apply W5; exact NE].
  - bd H1 as in_ s2 H2. assert (I4 : s2 = s /\ in_ = q). { unfold Client_Introducer in H2. bd H2 as c1 s5 H5. apply cli_ok in H5. destruct H5 as [H5 ->]. rewrite AU in H5. injection H5 as <-. rewrite IQ in H2. apply nonnull_ok in H2. destruct H2 as [H2 ->]. injection H2 as ->. auto. } destruct I4 as [-> ->].
    bd H1 as tok s2 H6. unfold Client_MyToken in H6. bd H6 as p0 s3 H7. apply cli_ok in H7. destruct H7 as [P ->]. rewrite AQ in P. injection P as <-. apply ret_ok in H6. destruct H6 as [-> ->].
    assert (NS : cl_type d <> T_SERVER) by (destruct UD; congruence).
    assert (SM : strchr0 "S" (cl_flags x) = memb "S" (cl_flags x)) by (apply strchr0_memb; discriminate). rewrite SM in H1. unfold intro_line.
    destruct (ctype_eqb (cl_type d) T_SERVICE && memb "S" (cl_flags x)) eqn:SV.
    + assert (MV : mseq [aMask u; aD (cl_mytoken p); aS (cl_modes d); aHops1 u; aS (cl_info d)] s = Ok [FS (firstn 115 (Spec.full_mask d)); FD (cl_mytoken p); FS (cl_modes d); FD (cl_hops d + 1); FS (cl_info d)] s).
      { apply seq_ok; [exact (mask_ok _ _ _ AU NS)|]. apply seq_ok; [reflexivity|]. apply seq_ok; [reflexivity|]. apply seq_ok; [exact (hops_ok _ _ _ AU)|]. apply seq_ok; reflexivity. }
      destruct (link_line1 _ _ _ _ _ _ _ _ _ _ _ T A TS CJ AF MV H1) as (V & W & Z). split; auto. split; auto. intros OP _. unfold service_text. rewrite <- fmt_service. apply Z. exact OP.
    + destruct (write_vals' _ _ _ _ _ _ _ H1 ltac:(auto)) as (vals & M). destruct (seq_id _ _ _ _ M) as (c1 & Q1 & Q2). rewrite AU in Q1. injection Q1 as <-.
      assert (MV : mseq [aID u; aHops1 u; aS un; aS (cl_host d); aD (cl_mytoken p); aS (cl_modes d); aS (cl_info d)] s = Ok [FS (id_of d); FD (cl_hops d + 1); FS un; FS (cl_host d); FD (cl_mytoken p); FS (cl_modes d); FS (cl_info d)] s).
      { apply seq_ok; [exact Q2|]. apply seq_ok; [exact (hops_ok _ _ _ AU)|]. repeat (apply seq_ok; [reflexivity|]). reflexivity. }
      destruct (link_line1 _ _ _ _ _ _ _ _ _ _ _ T A TS CJ AF MV H1) as (V & W & Z). split; auto. split; auto. intros OP _. unfold nick_text. assert (EU : un = shown_user d) by (rewrite Eu; unfold shown_user; destruct (cl_user d); reflexivity). rewrite <- EU, <- fmt_nick. apply Z. exact OP.
Qed.
(** the broadcast *)
Lemma announce_list : forall u d q p pref fc l s w s', tree s -> NoDup l -> assoc u (s_heap s) = Some d -> a_usr d -> cl_introducer d = Some q -> assoc q (s_heap s) = Some p ->
  cl_cloaked d = None -> cl_account d = None -> assoc pref (s_heap s) = Some fc ->
  mfor l (fun h => c <- cli h ;;
    if ctype_eqb (cl_type c) T_SERVER && (match cl_conn c with Some _ => true | None => false end) && negb (heq h This_Server) && negb (oheq (Some pref) h)
    then (Client_Announce h pref u ;;; ret tt) else ret tt) s = Ok w s' ->
  view s s' /\
  forall j, (is_open s j = true -> forall g x, In g l -> hit s (Some pref) None g j -> assoc g (s_heap s) = Some x -> option_map co_rfc1459 (assoc j (s_conns s)) = Some false -> written s s' j [on_wire (intro_line x d fc p)]) /\
    ((forall g, In g l -> ~ hit s (Some pref) None g j) -> written s s' j []).
Proof.
  intros u d q p pref fc. induction l as [|h l IH]; intros s w s' T N AU UD IQ AQ NCL NAC AF H; cbn [mfor] in H.
  - apply ret_ok in H. destruct H as [_ ->]. split; [reflexivity|]. intro j. split; [intros _ g x []|intros _; apply written_nil; reflexivity].
  - bd H as w1 s1 H1. inversion N as [|a z N1 N2]; subst a z.
    assert (PR : proto s s1) by (match type of H1 with ?m _ = _ => assert (QN : rel proto m) by rel_auto; exact (QN _ _ _ H1) end).
    assert (G : view s s1 /\ forall j, (is_open s j = true -> forall x, hit s (Some pref) None h j -> assoc h (s_heap s) = Some x -> option_map co_rfc1459 (assoc j (s_conns s)) = Some false -> written s s1 j [on_wire (intro_line x d fc p)]) /\ (~ hit s (Some pref) None h j -> written s s1 j [])).
    { bd H1 as c s2 H2. apply cli_ok in H2. destruct H2 as [AC ->]. destruct (_ && _) eqn:E in H1.
      - apply andb_true_iff in E. destruct E as [E E4]. apply andb_true_iff in E. destruct E as [E E3]. apply andb_true_iff in E. destruct E as [E1 E2]. apply ctype_eqb_eq in E1. destruct (cl_conn c) as [j|] eqn:CJ; [|discriminate E2].
        assert (NE : Some pref <> Some h) by (intros X; injection X as <-; cbn [oheq] in E4; rewrite Nat.eqb_refl in E4; discriminate E4).
        bd H1 as b s2 H2. apply ret_ok in H1. destruct H1 as [_ ->]. destruct (announce_one _ _ _ _ _ _ _ _ _ _ _ _ T AC E1 CJ AU UD IQ AQ NCL NAC AF H2) as (V & W & Z). split; auto. intro k. split.
        + intros OP x HT AX RF. rewrite AC in AX. injection AX as <-. destruct HT as (d0 & K1 & _ & K2 & _). rewrite AC in K1. injection K1 as <-. rewrite CJ in K2. injection K2 as ->. apply Z; auto.
        + intro NH. apply W. intros ->. apply NH. exists c. auto 10.
      - apply ret_ok in H1. destruct H1 as [_ ->]. split; [reflexivity|]. intro j. split; [|intros _; apply written_nil; reflexivity].
        intros _ x (d0 & A2 & TS & CJ & NE & _). rewrite AC in A2. injection A2 as <-. rewrite TS, CJ in E. change (ctype_eqb T_SERVER T_SERVER) with true in E. cbn [andb] in E.
        assert (NT : heq h This_Server = false). { apply Nat.eqb_neq. intros ->. destruct (tr_me _ T) as (me & M1 & _ & M2 & _). rewrite AC in M1. injection M1 as <-. congruence. } rewrite NT in E. cbn [negb andb oheq] in E. apply negb_false_iff in E. apply Nat.eqb_eq in E. subst h. contradiction. }
    destruct G as (V & G). destruct (IH s1 w s') as (V2 & G2); auto; [eapply view_tree; eauto|rewrite (v_heap _ _ V); assumption..|]. split; [etransitivity; eauto|].
    intro j. specialize (G j). specialize (G2 j). rewrite (view_open _ _ _ V) in G2. rewrite (PR j) in G2. destruct G as [G3 G4]. destruct G2 as [G5 G6]. split.
    + intros OP g x [<- |I] HT AX RF.
      * match goal with |- written _ _ _ ?l0 => rewrite <- (app_nil_r l0) end. eapply written_app; [apply G3; auto|]. apply G6. intros g I X. apply (view_hit _ _ _ _ _ _ V) in X. destruct HT as (d0 & K1 & _ & K2 & _). destruct X as (d' & K3 & _ & K4 & _). destruct (conn_client _ _ _ _ _ _ T K1 K3 K2 K4) as [-> _]. contradiction.
      * match goal with |- written _ _ _ ?l0 => change l0 with ([] ++ l0) end. eapply written_app; [apply G4|apply (G5 OP g x I); [apply (view_hit _ _ _ _ _ _ V); exact HT|rewrite (v_heap _ _ V); exact AX|exact RF]]. intro X. destruct HT as (d0 & K1 & _ & K2 & _). destruct X as (d' & K3 & _ & K4 & _). destruct (conn_client _ _ _ _ _ _ T K1 K3 K2 K4) as [-> _]. contradiction.
    + intro X. change (@nil bytes) with (@nil bytes ++ []). eapply written_app; [apply G4; apply X; left; auto|apply G6]. intros g I Q. apply (X g); [right; auto|]. apply (view_hit _ _ _ _ _ _ V). exact Q.
Qed.
(** a state with one more client *)
Record grown (s s' : state) (e : client) : Prop := mk_grown {
  gr_heap : s_heap s' = (s_next s, e) :: s_heap s; gr_clients : s_clients s' = s_next s :: s_clients s; gr_conns : s_conns s' = s_conns s; gr_out : s_out s' = s_out s }.
Definition plain (h : handle) (s : state) : Prop := forall c, assoc h (s_heap s) = Some c -> cl_cloaked c = None /\ cl_account c = None.
Lemma plain_upd : forall h k f s u s', upd_cli k f s = Ok u s' -> (forall c, cl_cloaked (f c) = cl_cloaked c /\ cl_account (f c) = cl_account c) -> plain h s -> plain h s'.
Proof.
  intros h k f s u s' H E P c A. destruct u. apply upd_cli_ok in H. destruct H as (c0 & A0 & ->). cbn [s_heap set_s_heap] in A. rewrite assoc_aupd in A. destruct (Nat.eqb_spec k h) as [<- |]; [|apply P; exact A]. destruct (assoc k (s_heap s)) as [x|] eqn:Q; [|discriminate A]. injection A as <-. destruct (E x) as [-> ->]. apply P. exact Q.
Qed.
Lemma plain_heap : forall h s s', s_heap s' = s_heap s -> plain h s -> plain h s'.
Proof. intros h s s' E P c. rewrite E. apply P. Qed.
Lemma init_plain : forall intro top t id user host info hops token modes idented s h s', t <> T_SERVER -> Init_New_Client None intro top t id user host info hops token modes idented s = Ok h s' -> plain h s'.
Proof.
  intros intro top t id user host info hops token modes idented s h s' NT H. unfold Init_New_Client in H.
  bd H as h0 s0 H0. rdgets H0. bd H as tm s0 H0. unfold now in H0. rdgets H0. bd H as u1 s1 H1. apply modify_ok in H1.
  assert (P : plain (s_next s) s1). { subst s1. intros c A. cbn [s_heap set_s_heap set_s_next assoc] in A. rewrite Nat.eqb_refl in A. injection A as <-. split; reflexivity. } clear H1.
  bd H as u2 s2 H2. assert (P2 : plain (s_next s) s2).
  { destruct id; cbn [opt] in H2; [|apply ret_ok in H2; destruct H2 as [_ ->]; exact P]. unfold Client_SetID in H2. bd H2 as v sx Hx. unfold cf in Hx. rdgets Hx. eapply plain_upd; [exact H2| |exact P]. intro c. destruct (cf_cloakusertonick _); split; reflexivity. }
  clear H2. bd H as u3 s3 H3. assert (P3 : plain (s_next s) s3).
  { destruct user; cbn [opt] in H3; [|apply ret_ok in H3; destruct H3 as [_ ->]; exact P2]. unfold Client_SetUser in H3. bd H3 as v sx Hx. unfold cf in Hx. rdgets Hx. eapply plain_upd; [exact H3| |exact P2]. intro c. repeat match goal with |- context [if ?b then _ else _] => destruct b end; split; reflexivity. }
  clear H3. bd H as u4 s4 H4. assert (P4 : plain (s_next s) s4).
  { destruct host; cbn [opt] in H4; [|apply ret_ok in H4; destruct H4 as [_ ->]; exact P3]. unfold Client_SetHostname in H4. bd H4 as c sx Hx. apply cli_ok in Hx. destruct Hx as [_ ->].
    bd H4 as ck sx Hx. unfold cf in Hx. rdgets Hx. bd H4 as sa sx Hx. unfold cf in Hx. rdgets Hx. cbv zeta in H4. match type of H4 with (if ?b then _ else _) _ = _ => destruct b end; (eapply plain_upd; [exact H4| |exact P3]; intro; split; reflexivity). }
  clear H4. bd H as u5 s5 H5. assert (P5 : plain (s_next s) s5).
  { destruct info; cbn [opt] in H5; [|apply ret_ok in H5; destruct H5 as [_ ->]; exact P4]. unfold Client_SetInfo in H5. bd H5 as v sx Hx. unfold cf in Hx. rdgets Hx. eapply plain_upd; [exact H5| |exact P4]. intro c. repeat match goal with |- context [if ?b then _ else _] => destruct b end; split; reflexivity. }
  clear H5. bd H as u6 s6 H6. assert (P6 : plain (s_next s) s6) by (eapply plain_upd; [exact H6|intro; split; reflexivity|exact P5]). clear H6.
  bd H as u7 s7 H7. assert (P7 : plain (s_next s) s7).
  { destruct modes; cbn [opt] in H7; [|apply ret_ok in H7; destruct H7 as [_ ->]; exact P6]. unfold Client_SetModes in H7. eapply plain_upd; [exact H7|intro; split; reflexivity|exact P6]. }
  clear H7. bd H as u8 s8 H8. assert (s8 = s7). { replace (ctype_eqb t T_SERVER) with false in H8 by (destruct t; congruence || reflexivity). apply ret_ok in H8. apply H8. } subst s8. clear H8.
  bd H as a s9 H9. unfold Client_HasMode in H9. bd H9 as cx sx Hx9. apply cli_ok in Hx9. destruct Hx9 as [_ ->]. rdret H9.
  bd H as u10 s10 H10. assert (P10 : plain (s_next s) s10).
  { unfold whenM in H10. match type of H10 with (if ?b then _ else _) _ = _ => destruct b end; [eapply plain_upd; [exact H10|intro; split; reflexivity|exact P7]|apply ret_ok in H10; destruct H10 as [_ ->]; exact P7]. }
  clear H10. bd H as u11 s11 H11. apply modify_ok in H11. bd H as u12 s12 H12. destruct u12. apply Adjust_Counters_ok in H12. destruct H12 as (m1 & m2 & ->). apply ret_ok in H. destruct H as [-> ->].
  eapply plain_heap; [|exact P10]. subst s11. reflexivity.
Qed.
(** what a new client is filled with *)
Definition data (h : handle) (s0 : state) (P : client -> Prop) (s : state) : Prop := s_conf s = s_conf s0 /\ forall c, assoc h (s_heap s) = Some c -> P c.
Lemma data_upd : forall h s0 (P Q : client -> Prop) f s u s', upd_cli h f s = Ok u s' -> (forall c, P c -> Q (f c)) -> data h s0 P s -> data h s0 Q s'.
Proof.
  intros h s0 P Q f s u s' H E [C D]. destruct u. apply upd_cli_ok in H. destruct H as (c0 & A0 & ->). split; [exact C|]. intros c A. cbn [s_heap set_s_heap] in A. rewrite assoc_aupd, Nat.eqb_refl, A0 in A. injection A as <-. apply E, D, A0.
Qed.
Definition filled (k : bool) (ck nick user host info : bytes) (hops : Z) (c : client) : Prop :=
  cl_user c = strlcpy CLIENT_USER_LEN (if k then strlcpy CLIENT_ID_LEN nick else user) /\ (ck = [] -> cl_host c = strlcpy CLIENT_HOST_LEN host) /\
  cl_info c = strlcpy CLIENT_INFO_LEN (if k then strlcpy CLIENT_ID_LEN nick else info) /\ cl_hops c = hops.
Lemma init_data : forall intro nick hops user host token modes info s h s', Client_NewRemoteUser intro nick hops user host token modes info true s = Ok h s' ->
  forall c, assoc h (s_heap s') = Some c -> filled (cf_cloakusertonick (s_conf s)) (cf_cloakhost (s_conf s)) nick user host info hops c.
Proof.
  intros intro nick hops user host token modes info s h s' H. unfold Client_NewRemoteUser, Init_New_Client in H. cbn [opt ctype_eqb] in H. set (k := cf_cloakusertonick (s_conf s)). set (ck := cf_cloakhost (s_conf s)).
  bd H as h0 s0 H0. rdgets H0. bd H as tm s0 H0. unfold now in H0. rdgets H0. bd H as u1 s1 H1. apply modify_ok in H1. set (n := s_next s) in *.
  assert (D : data n s (fun _ => True) s1) by (subst s1; split; auto). clear H1.
  bd H as u2 s2 H2. unfold Client_SetID in H2. bd H2 as v sx Hx. unfold cf in Hx. rdgets Hx.
  assert (D2 : data n s (fun c => cl_id c = strlcpy CLIENT_ID_LEN nick) s2).
  { eapply data_upd; [exact H2| |exact D]. unfold set_id. intros c _. destruct (cf_cloakusertonick _); reflexivity. } clear H2 D.
  bd H as u3 s3 H3. unfold Client_SetUser in H3. bd H3 as v sx Hx. unfold cf in Hx. rdgets Hx. rewrite (proj1 D2) in H3. fold k in H3.
  assert (D3 : data n s (fun c => cl_id c = strlcpy CLIENT_ID_LEN nick /\ cl_user c = strlcpy CLIENT_USER_LEN (if k then strlcpy CLIENT_ID_LEN nick else user)) s3).
  { eapply data_upd; [exact H3| |exact D2]. unfold set_user. cbv beta. intros c E. destruct k; cbn [set_cl_user cl_id cl_user]; rewrite ?E; auto. } clear H3 D2.
  bd H as u4 s4 H4. unfold Client_SetHostname in H4. bd H4 as cx sx Hx. apply cli_ok in Hx. destruct Hx as [_ ->]. bd H4 as ck0 sx Hx. unfold cf in Hx. rdgets Hx. bd H4 as sa sx Hx. unfold cf in Hx. rdgets Hx. rewrite (proj1 D3) in H4. fold ck in H4. cbv zeta in H4.
  assert (D4 : data n s (fun c => cl_id c = strlcpy CLIENT_ID_LEN nick /\ cl_user c = strlcpy CLIENT_USER_LEN (if k then strlcpy CLIENT_ID_LEN nick else user) /\ (ck = [] -> cl_host c = strlcpy CLIENT_HOST_LEN host)) s4).
  { destruct ck as [|b0 ck1] eqn:EK; cbn [beq negb andb] in H4; [eapply data_upd; [exact H4| |exact D3]; cbv beta; intros c [E1 E2]; cbn [set_cl_host cl_id cl_user cl_host]; auto|].
    match type of H4 with (if ?b then _ else _) _ = _ => destruct b end; (eapply data_upd; [exact H4| |exact D3]; cbv beta; intros c [E1 E2]; cbn [set_cl_host cl_id cl_user cl_host]; split; [exact E1|split; [exact E2|intro X; discriminate X]]). } clear H4 D3.
  bd H as u5 s5 H5. unfold Client_SetInfo in H5. bd H5 as v sx Hx. unfold cf in Hx. rdgets Hx. rewrite (proj1 D4) in H5. fold k in H5.
  assert (D5 : data n s (fun c => cl_user c = strlcpy CLIENT_USER_LEN (if k then strlcpy CLIENT_ID_LEN nick else user) /\ (ck = [] -> cl_host c = strlcpy CLIENT_HOST_LEN host) /\ cl_info c = strlcpy CLIENT_INFO_LEN (if k then strlcpy CLIENT_ID_LEN nick else info)) s5).
  { eapply data_upd; [exact H5| |exact D4]. unfold set_info. cbv beta. intros c (E1 & E2 & E3). cbn [set_cl_info cl_id cl_user cl_host cl_info]. rewrite E1. auto. } clear H5 D4.
  bd H as u6 s6 H6. assert (D6 : data n s (filled k ck nick user host info hops) s6).
  { eapply data_upd; [exact H6| |exact D5]. cbv beta. unfold filled. intros c (E1 & E2 & E3). cbn [set_cl_token set_cl_hops cl_user cl_host cl_info cl_hops]. auto. } clear H6 D5.
  bd H as u7 s7 H7. assert (D7 : data n s (filled k ck nick user host info hops) s7).
  { unfold Client_SetModes in H7. eapply data_upd; [exact H7| |exact D6]. intros c E. exact E. } clear H7 D6.
  bd H as u8 s8 H8. apply ret_ok in H8. destruct H8 as [_ ->].
  bd H as a s9 H9. unfold Client_HasMode in H9. bd H9 as cx2 sx Hx9. apply cli_ok in Hx9. destruct Hx9 as [_ ->]. rdret H9.
  bd H as u10 s10 H10. assert (D8 : data n s (filled k ck nick user host info hops) s10).
  { unfold whenM in H10. match type of H10 with (if ?b then _ else _) _ = _ => destruct b end; [eapply data_upd; [exact H10| |exact D7]; intros c E; exact E|apply ret_ok in H10; destruct H10 as [_ ->]; exact D7]. }
  clear H10. bd H as u11 s11 H11. apply modify_ok in H11. bd H as u12 s12 H12. destruct u12. apply Adjust_Counters_ok in H12. destruct H12 as (m1 & m2 & ->). apply ret_ok in H. destruct H as [-> ->].
  subst s11. exact (proj2 D8).
Qed.
Lemma grown_type : forall s s1 e t s2, wf s -> grown s s1 e -> cl_type e <> T_SERVER -> cl_type e <> T_UNKNOWNSERVER -> t <> T_SERVER -> Client_SetType (s_next s) t s1 = Ok tt s2 -> grown s s2 (set_cl_type t e).
Proof.
  intros s s1 e t s2 W [G1 G2 G3 G4] N1 N2 N3 H. apply Client_SetType_ok in H. destruct H as (c & tok & a & b & A & -> & _). rewrite G1 in A. cbn [assoc] in A. rewrite Nat.eqb_refl in A. injection A as <-.
  assert (R : retype_odd e t = false). { unfold retype_odd. destruct (cl_type e); try reflexivity; congruence. } rewrite R. unfold if_odd.
  assert (TY : typed t tok e = set_cl_type t e). { unfold typed. destruct t; try reflexivity. congruence. }
  split; unfold set_cli; cbn [s_heap s_clients s_conns s_out set_s_heap set_s_maxusers set_s_mymaxusers]; auto.
  rewrite G1. change (aupd (s_next s) (typed t tok) ((s_next s, e) :: s_heap s)) with ((if (s_next s =? s_next s)%nat then (s_next s, typed t tok e) else (s_next s, e)) :: aupd (s_next s) (typed t tok) (s_heap s)).
  rewrite Nat.eqb_refl, TY. f_equal.
  apply aupd_fresh. apply (wf_fresh _ W).
Qed.

Lemma token_ok : forall h tok s o s', Client_GetFromToken h tok s = Ok o s' -> s' = s /\
  match o with Some q => exists p, assoc q (s_heap s) = Some p /\ cl_type p = T_SERVER /\ cl_introducer p = Some h /\ cl_token p = tok
  | None => tok <> 0%Z -> forall q p, In q (s_clients s) -> assoc q (s_heap s) = Some p -> cl_type p = T_SERVER -> cl_introducer p = Some h -> cl_token p <> tok end.
Proof.
  intros h tok s o s' H. unfold Client_GetFromToken in H. destruct (Z.eqb_spec tok 0) as [E0|E0]. { apply ret_ok in H. destruct H as [-> ->]. split; [reflexivity|intro; contradiction]. }
  bd H as l s1 H1. unfold Clients in H1. rdgets H1. apply mfind_ok in H; [|intros a b t Ht; minv Ht; reflexivity].
  destruct H as [-> H]. split; auto. destruct o as [q|].
  - destruct H as [_ H]. bd H as c s1 H1. rdcli H1. apply ret_ok in H. destruct H as [H _]. symmetry in H. rewrite !andb_true_iff in H. destruct H as [[E1 E2] E3]. exists c. split; auto. split; [apply ctype_eqb_eq; auto|]. apply Z.eqb_eq in E3. split; auto.
    unfold oheq in E2. destruct (cl_introducer c); [|discriminate]. apply Nat.eqb_eq in E2. congruence.
  - intros _ q p I A T IQ TK. specialize (H q I). bd H as c s1 H1. apply cli_ok in H1. destruct H1 as [A1 ->]. rewrite A in A1. injection A1 as <-. apply ret_ok in H. destruct H as [H _]. rewrite T, IQ, TK, Z.eqb_refl in H. unfold oheq in H. rewrite Nat.eqb_refl in H. discriminate H.
Qed.
Lemma introduce_runs : forall s h c i req b s', wf s -> tree s -> assoc h (s_heap s) = Some c -> cl_conn c = Some i -> h <> This_Server -> icli s ->
  List.length (rq_args req) = 7%nat -> (forall g, ~ called s (arg req 0) g) -> nick_introduce h req s = Ok b s' ->
  (atoi (arg req 4) <> 0%Z -> (exists q p, known s q p /\ cl_type p = T_SERVER /\ cl_introducer p = Some h /\ cl_token p = atoi (arg req 4)) -> exists g e, assoc g (s_heap s) = None /\ assoc g (s_heap s') = Some e) /\
  forall g e, assoc g (s_heap s) = None -> assoc g (s_heap s') = Some e ->
  a_usr e /\ cl_id e = strlcpy CLIENT_ID_LEN (arg req 0) /\ cl_conn e = None /\ cl_hops e = atoi (arg req 1) /\ filled (cf_cloakusertonick (s_conf s)) (cf_cloakhost (s_conf s)) (arg req 0) (arg req 2) (arg req 3) (arg req 6) (atoi (arg req 1)) e /\ cl_modes e = strlcpy CLIENT_MODE_LEN (tl (arg req 5)) /\ (exists q p, cl_introducer e = Some q /\ assoc q (s_heap s') = Some p /\ cl_type p = T_SERVER /\ cl_introducer p = Some h /\ cl_token p = atoi (arg req 4)) /\ exists line : client -> bytes, (forall x, user_line s' x e false c (line x)) /\ forall j, (is_open s j = true -> forall x, link s j x -> i <> j -> option_map co_rfc1459 (assoc j (s_conns s)) = Some false -> written s s' j [on_wire (line x)]) /\ (i = j \/ (forall x, ~ link s j x) -> written s s' j []).
Proof.
  intros s h c i req b s' W T AH CI HM IC LA NC H. unfold nick_introduce in H. unfold argc in H. rewrite LA in H. cbn [Nat.eqb negb andb] in H. cbv zeta in H.
  bd H as id s1 H1. apply Client_ID_ok in H1. destruct H1 as [-> _]. bd H as o s1 H1. pose proof (search_called _ _ _ _ IC H1) as [-> SO]. destruct o as [u0|]; [exfalso; apply (NC u0); exact SO|].
  bd H as oi s2 H2. apply token_ok in H2. destruct H2 as [-> Hi]. destruct oi as [q|].
  2: { unfold IRC_KillClient in H. bd H as o2 s2 H2. rewrite H1 in H2. injection H2 as <- <-. apply ret_ok in H. destruct H as [_ ->]. split; [|intros; congruence]. intros NZ (q & p & [KI KA] & K1 & K2 & K3). exfalso. rewrite lookup_assoc in KA. exact (Hi NZ q p KI KA K1 K2 K3). }
  destruct Hi as (p & AP & TP & IP & TK).
  bd H as modes s2 H2. assert (s2 = s /\ modes = tl (arg req 5)) as [-> ->]. { destruct (arg req 5); [unfold bad in H2; discriminate|apply ret_ok in H2; destruct H2 as [-> ->]; auto]. } clear H2.
  bd H as n s1 H3. assert (NU : T_USER <> T_SERVER) by discriminate. pose proof (init_data _ _ _ _ _ _ _ _ _ _ _ H3) as ID. unfold Client_NewRemoteUser in H3. pose proof (init_plain _ _ _ _ _ _ _ _ _ _ _ _ _ _ NU H3) as PL.
  destruct (wf_fresh _ W) as [F1 F2]. destruct (Init_New_Client_ok _ _ _ _ _ _ _ _ _ _ _ _ _ _ _ H3 F1 F2) as (En & e1 & a1 & a2 & FR & Es). clear H3.
  assert (G1 : grown s s1 e1). { subst s1 n. split; reflexivity. }
  assert (PE : cl_cloaked e1 = None /\ cl_account e1 = None). { apply PL. rewrite (gr_heap _ _ _ G1), En. cbn [assoc]. rewrite Nat.eqb_refl. reflexivity. }
  assert (FD1 : forall P : client -> Prop, (forall c, assoc n (s_heap s1) = Some c -> P c) -> P e1). { intros P Q. apply Q. rewrite (gr_heap _ _ _ G1), En. cbn [assoc]. rewrite Nat.eqb_refl. reflexivity. } apply FD1 in ID. clear FD1.
  clear Es PL. bd H as u s3 H4. apply ret_ok in H. destruct H as [_ ->]. unfold Client_Introduce in H4. bd H4 as u1 s2 H5. destruct u1. rewrite En in H5. apply (grown_type _ _ _ _ _ W G1) in H5; [|rewrite (fr_type _ _ _ _ _ _ _ _ _ _ FR); discriminate..|discriminate].
  bd H4 as u2 s4 H6.
  assert (G4 : exists e2, grown s s4 e2 /\ (e2 = set_cl_type T_USER e1 \/ e2 = set_cl_type T_SERVICE (set_cl_type T_USER e1))).
  { bd H6 as oc s5 H7. assert (s5 = s2). { unfold Client_Conn in H7. bd H7 as z s6 H8. apply cli_ok in H8. destruct H8 as [_ ->]. apply ret_ok in H7. apply H7. } subst s5. clear H7.
    bd H6 as ii s5 H7. apply nonnull_ok in H7. destruct H7 as [_ ->]. bd H6 as sv s5 H7. unfold Conf_GetServer in H7. rdgets H7. destruct (find_idx _ _) as [sn|]; [|apply ret_ok in H6; destruct H6 as [_ ->]; eauto].
    bd H6 as idn s5 H7. apply Client_ID_ok in H7. destruct H7 as [-> _]. bd H6 as x s5 H7. assert (s5 = s2). { unfold sv_at in H7. bd H7 as z s6 H8. rdgets H8. apply nonnull_ok in H7. apply H7. } subst s5. clear H7.
    unfold whenM in H6. destruct (Conf_NickIsService x idn); [|apply ret_ok in H6; destruct H6 as [_ ->]; eauto]. destruct u2. rewrite En in H6. eapply grown_type in H6; [|exact W|exact H5|discriminate..]. eauto. }
  clear H6. destruct G4 as (e2 & G4 & E2).
  assert (FE : a_usr e2 /\ cl_introducer e2 = Some q /\ cl_conn e2 = None /\ cl_id e2 = strlcpy CLIENT_ID_LEN (arg req 0) /\ cl_hops e2 = atoi (arg req 1) /\ cl_modes e2 = strlcpy CLIENT_MODE_LEN (tl (arg req 5)) /\ cl_cloaked e2 = None /\ cl_account e2 = None /\ filled (cf_cloakusertonick (s_conf s)) (cf_cloakhost (s_conf s)) (arg req 0) (arg req 2) (arg req 3) (arg req 6) (atoi (arg req 1)) e2).
  { destruct FR. destruct PE. unfold a_usr, filled in *. destruct E2 as [-> | ->]; cbn [set_cl_type cl_type cl_introducer cl_conn cl_id cl_hops cl_modes cl_cloaked cl_account cl_user cl_host cl_info]; auto 12. }
  destruct FE as (X1 & X2 & X3 & X4 & X5 & X6 & X7 & X8 & X9).
  destruct G4 as [K1 K2 K3 K4].
  assert (QM : q <> This_Server). { intros ->. destruct (tr_me _ T) as (me & M1 & _ & _ & M2). rewrite AP in M1. injection M1 as <-. congruence. }
  assert (T4 : tree s4). { apply (tree_new s s4 e2 W T K1 K2); [|intros j E; congruence]. intros _. split; auto. exists q, p. auto. }
  assert (OLD : forall k z, assoc k (s_heap s) = Some z -> assoc k (s_heap s4) = Some z). { intros k z A. rewrite K1. cbn [assoc]. destruct (Nat.eqb_spec k (s_next s)) as [-> |]; [|exact A]. exfalso. apply F1. eapply assoc_key; eauto. }
  assert (NEW : assoc (s_next s) (s_heap s4) = Some e2). { rewrite K1. cbn [assoc]. rewrite Nat.eqb_refl. reflexivity. }
  unfold Servers_CB in H4. bd H4 as l s5 H7. unfold Clients in H7. rdgets H7.
  assert (ND : NoDup (s_clients s4)). { rewrite K2. constructor; [exact F2|]. apply (wf_clients _ W). }
  subst n. cbn [negb] in H4.
  destruct (announce_list (s_next s) e2 q p h c (s_clients s4) s4 u s3 T4 ND NEW X1 X2 (OLD _ _ AP) X7 X8 (OLD _ _ AH) H4) as (V & Z).
  split. { intros _ _. exists (s_next s), e2. split; [apply assoc_nokey; exact F1|]. rewrite (v_heap _ _ V). exact NEW. }
  intros g e AN AE. assert (g = s_next s /\ e = e2) as [-> ->]. { rewrite (v_heap _ _ V), K1 in AE. cbn [assoc] in AE. destruct (Nat.eqb_spec g (s_next s)) as [-> |]; [split; congruence|congruence]. }
  assert (AP3 : assoc q (s_heap s3) = Some p) by (rewrite (v_heap _ _ V); auto).
  split; [exact X1|]. split; [exact X4|]. split; [exact X3|]. split; [exact X5|]. split; [exact X9|]. split; [exact X6|]. split; [exists q, p; auto|].
  exists (fun x => intro_line x e2 c p). split. { intro x. exists q, p. split; [exact X2|]. split; [rewrite lookup_assoc; exact AP3|]. reflexivity. }
  assert (HL : forall g j, hit s4 (Some h) None g j -> In g (s_clients s) /\ g <> h /\ exists x, assoc g (s_heap s) = Some x /\ cl_type x = T_SERVER /\ cl_conn x = Some j).
  { intros g j (x & A & TS & CJ & NE & _). rewrite K1 in A. cbn [assoc] in A. destruct (Nat.eqb_spec g (s_next s)) as [-> |]; [injection A as <-; congruence|]. split; [eapply tr_listed; eauto|]. split; [intros ->; apply NE; reflexivity|]. eauto. }
  intro j. destruct (Z j) as [Z1 Z2]. assert (OP : is_open s4 j = is_open s j) by (unfold is_open; rewrite K3; reflexivity). rewrite OP, K3 in Z1.
  assert (W4 : forall l, written s4 s3 j l -> written s s3 j l). { intros l (y & Y1 & Y2). exists y. rewrite Y1, K4. auto. }
  split.
  - intros O x (g & [I A] & TS & CJ) NE RF. rewrite lookup_assoc in A. apply W4. apply (Z1 O g x); auto; [rewrite K2; right; exact I|]. exists x. split; auto. split; auto. split; auto. split; auto. intros E. injection E as <-. congruence.
  - intro Q. apply W4. apply Z2. intros g I HT. apply HL in HT. destruct HT as (I2 & NE & x & A & TS & CJ). destruct Q as [<- |Q].
    + apply NE. eapply (conn_client s); eauto.
    + apply (Q x). exists g. split; [split; auto; rewrite lookup_assoc; exact A|auto].
Qed.
Theorem introduced : forall s i h c text p u d name nick hops user host tok md real b s', live s -> undisturbed s -> client_of s i h c -> cl_type c = T_SERVER ->
  parse_line (trim text) = Some (mkReq (Some p) name [nick; hops; user; host; tok; md; real]) -> same_name name (B "NICK") -> the_client s p u d -> next_hop s u h -> cl_id d <> [] ->
  (cf_scrubctcp (s_conf s) = true -> ~ exists x y, trim text = x ++ ":"%char :: "001"%char :: y) ->
  (forall g, ~ called s nick g) -> Parse_Request i text s = Ok b s' ->
  (atoi tok <> 0%Z -> (exists q x, known s q x /\ cl_type x = T_SERVER /\ cl_introducer x = Some h /\ cl_token x = atoi tok) -> exists g e, lookup g (s_heap s) = None /\ lookup g (s_heap s') = Some e) /\
  forall g e, lookup g (s_heap s) = None -> lookup g (s_heap s') = Some e ->
  (cl_type e = T_USER \/ cl_type e = T_SERVICE) /\ cl_id e = firstn 63 nick /\ cl_conn e = None /\ cl_modes e = firstn 20 (tl md) /\
  cl_hops e = atoi hops /\ (if cf_cloakusertonick (s_conf s) then cl_user e = firstn 19 nick /\ cl_info e = firstn 63 nick else cl_user e = firstn 19 user /\ cl_info e = firstn 127 real) /\ (cf_cloakhost (s_conf s) = [] -> cl_host e = firstn 63 host) /\
  (exists q x, cl_introducer e = Some q /\ lookup q (s_heap s') = Some x /\ cl_type x = T_SERVER /\ cl_introducer x = Some h /\ cl_token x = atoi tok) /\
  exists line : client -> bytes, (forall x, user_line s' x e false c (line x)) /\
  forall j, (is_open s j = true -> forall x cn, link s j x -> i <> j -> lookup j (s_conns s) = Some cn -> co_rfc1459 cn = false -> written s s' j [on_wire (line x)]) /\
    (i = j \/ (forall x, ~ link s j x) -> written s s' j []).
Proof.
  intros s i h c text p u d name nick hops user host tok md real b s' L U C TS P N TP NX NI SC NC H. set (args := [nick; hops; user; host; tok; md; real]) in *.
  assert (AH : assoc h (s_heap s) = Some c) by (destruct C as [_ A]; rewrite lookup_assoc in A; exact A).
  assert (V : view s (set_s_wcounter 0 s)) by (split; reflexivity).
  assert (T : tree s) by (apply live_itree; auto).
  assert (W : wf (set_s_wcounter 0 s)). { destruct (live_wf2 _ L) as [A _]. destruct A; split; assumption. }
  assert (CI : cl_conn c = Some i). { destruct C as [(cn & C1 & C2) _]. rewrite lookup_assoc in C1. destruct (tr_c2h _ T _ _ C1) as (h2 & c2 & Q1 & Q2 & Q3). rewrite C2 in Q1. injection Q1 as <-. rewrite AH in Q2. injection Q2 as <-. exact Q3. }
  assert (HM : h <> This_Server). { intros ->. destruct (tr_me _ T) as (me & M1 & _ & M2 & _). rewrite AH in M1. injection M1 as <-. congruence. }
  assert (R : IRC_NICK h (mkReq (Some p) name args) (set_s_wcounter 0 s) = Ok b s').
  { apply (run_link s i h c text "NICK" args u d p name (mkCommand "NICK" IRC_NICK US_ANY 0 None 0) b s' L C TS P N TP SC NX NI); [reflexivity|rewrite TS; reflexivity|reflexivity|cbn; lia|intros m E; discriminate E|exact H]. }
  unfold IRC_NICK in R. bd R as t s1 H1. apply Client_Type_ok in H1. destruct H1 as (-> & c0 & Hc & ->). assert (c0 = c) by (change (assoc h (s_heap s) = Some c0) in Hc; congruence). subst c0. rewrite TS in R. cbv zeta in R. change (argc (mkReq (Some p) name args) =? 1)%nat with false in R.
  assert (NC2 : forall g, ~ called (set_s_wcounter 0 s) (arg (mkReq (Some p) name args) 0) g) by exact NC.
  destruct (introduce_runs (set_s_wcounter 0 s) h c i (mkReq (Some p) name args) b s' W (view_tree _ _ V T) AH CI HM (live_icli _ L) eq_refl NC2 R) as [EX RR].
  split. { intros NZ Q. destruct (EX NZ Q) as (g & e & A1 & A2). exists g, e. rewrite !lookup_assoc. split; assumption. }
  intros g e AN AE. rewrite lookup_assoc in AN, AE. destruct (RR g e AN AE) as (X1 & X2 & X3 & XH & (F1 & F2 & F3 & _) & X4 & (q & sp & X5 & X6 & X7 & X8 & X9) & line & Y1 & Y2).
  split; [exact X1|]. split; [rewrite X2; unfold CLIENT_ID_LEN; rewrite strlcpy_is_firstn by lia; reflexivity|]. split; [exact X3|]. split; [rewrite X4; unfold CLIENT_MODE_LEN; rewrite strlcpy_is_firstn by lia; reflexivity|].
  split; [exact XH|]. split.
  { change (s_conf (set_s_wcounter 0 s)) with (s_conf s) in F1, F3. unfold arg, args in F1, F3. cbn [rq_args nth] in F1, F3. unfold CLIENT_USER_LEN, CLIENT_INFO_LEN, CLIENT_ID_LEN in F1, F3. destruct (cf_cloakusertonick (s_conf s)); rewrite !strlcpy_is_firstn in F1, F3 by lia; [rewrite firstn_firstn in F1, F3|]; split; [exact F1|exact F3|exact F1|exact F3]. }
  split. { intro CK. rewrite (F2 CK). unfold CLIENT_HOST_LEN. rewrite strlcpy_is_firstn by lia. reflexivity. }
  split; [|exists line; split; [exact Y1|]].
  - exists q, sp. rewrite lookup_assoc. auto.
  - intro j. destruct (Y2 j) as [Y3 Y4]. split; [|exact Y4]. intros O x cn K NE A RF. rewrite lookup_assoc in A. apply Y3; auto. change (option_map co_rfc1459 (assoc j (s_conns s)) = Some false). rewrite A. cbn [option_map]. rewrite RF. reflexivity.
Qed.
