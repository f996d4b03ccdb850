(** What is told when a server introduces another server (C28). *)
From Coq Require Import List Ascii String ZArith NArith Bool Lia Arith.
From Coq Require Import Relations RelationClasses.
From Verif Require Import Bytes Strl Match Lists ListsProofs Hash ParseReq State Messages Monad Core Write Info Chan Mode Msg Login Oper Server Dispatch Conn.
From Verif Require Import Rel RelWrite RelInfo RelBase RelInit RelChan RelSrv RelKey RelCmd RelComp WF RelGone Frame Tree Inv1 Inv2 Inv3 Inv4 Live Spec Observ Unch HandOper HandPrefix HandLine Frames Attrib HandGain HandUser HandChan HandJoin HandKick Output HandDo HandSend SpecMore SpecLink HandCast SpecNick HandNick SpecJoin HandJoined SpecMode HandTell HandUmode SpecKill HandKill SpecSync HandSync HandSquit HandIntro.
Import ListNotations.
Local Open Scope m_scope.

Lemma prints_ok : forall m a l s vals, m s = Ok a s -> prints l s vals -> prints (m :: l) s (a :: vals).
Proof.
  intros m a l s vals M P v s' H. cbn [mseq] in H. bd H as x s1 H1. rewrite M in H1. injection H1 as <- <-. bd H as w s1 H1. destruct (P _ _ H1) as [-> ->]. apply ret_ok in H. destruct H as [-> ->]. auto.
Qed.
(** a new client that is on no connection changes nothing about where the others are *)
Lemma grown_next : forall s s1 e m x, tree s -> wf s -> grown s s1 e -> next_hop s1 m x -> m <> s_next s -> next_hop s m x.
Proof.
  intros s s1 e m x T W G N. destruct (wf_fresh _ W) as [F1 _]. induction N as [m c A E|m c q x A E N1 N2 N IH]; intro NE.
  - rewrite lookup_assoc, (gr_heap _ _ _ G) in A. cbn [assoc] in A. destruct (Nat.eqb_spec m (s_next s)); [contradiction|]. eapply NH_direct; [rewrite lookup_assoc; exact A|exact E].
  - rewrite lookup_assoc, (gr_heap _ _ _ G) in A. cbn [assoc] in A. destruct (Nat.eqb_spec m (s_next s)); [contradiction|]. eapply NH_via; [rewrite lookup_assoc; exact A|exact E|exact N1|exact N2|]. apply IH. intros ->.
    destruct (cl_conn c) as [j|] eqn:CJ; [destruct (tr_local _ T _ _ _ A CJ); congruence|]. destruct (Nat.eq_dec m This_Server) as [-> |NM].
    + destruct (tr_me _ T) as (me & M1 & _ & _ & M2). rewrite A in M1. injection M1 as <-. congruence.
    + destruct (tr_remote _ T _ _ A CJ NM) as (p & cp & X1 & _ & _ & X2 & _). rewrite E in X1. injection X1 as <-. apply F1. eapply assoc_key; eauto.
Qed.
Lemma grown_warned : forall s s1 e j, tree s -> wf s -> grown s s1 e -> cl_conn e = None -> s_chans s1 = s_chans s -> s_members s1 = s_members s -> warned s1 j -> warned s j.
Proof.
  intros s s1 e j T W G CE EC EM [(g & x & K1 & K2 & K3)|(ch & k & m & nh & x & K1 & K2 & (y & K3 & K4 & K5) & K6 & K7 & K8)].
  - left. exists g, x. rewrite lookup_assoc, (gr_heap _ _ _ G) in K1. cbn [assoc] in K1. destruct (Nat.eqb_spec g (s_next s)) as [-> |]; [injection K1 as <-; congruence|]. rewrite lookup_assoc. auto.
  - right. exists ch, k, m, nh, x. unfold exists_chan in *. rewrite EC in K1. rewrite EM in K3. split; auto. split; auto. split; [exists y; auto|].
    assert (NM : m <> s_next s). { pose proof (wf_mbclient _ W (mpair y)) as X. assert (I : In (mpair y) (sh_members (shape_of s))) by (apply in_map; exact K3). specialize (X I). cbn in X. subst m. unfold mpair in X. cbn in X. lia. }
    split; [eapply grown_next; eauto|]. rewrite lookup_assoc, (gr_heap _ _ _ G) in K7. cbn [assoc] in K7. destruct (Nat.eqb_spec nh (s_next s)) as [-> |]; [injection K7 as <-; congruence|]. rewrite lookup_assoc. auto.
Qed.
(** what a new server is filled with *)
Lemma data_keep : forall h s0 P s s', s_heap s' = s_heap s -> s_conf s' = s_conf s -> data h s0 P s -> data h s0 P s'.
Proof. intros h s0 P s s' E1 E2 [A B]. split; [congruence|]. rewrite E1. exact B. Qed.
Lemma init_info : forall intro host top hops token info s h s', Client_NewRemoteServer intro host top hops token info true s = Ok h s' ->
  forall c, assoc h (s_heap s') = Some c -> cl_info c = strlcpy CLIENT_INFO_LEN (if cf_cloakusertonick (s_conf s) then strlcpy CLIENT_ID_LEN host else info).
Proof.
  intros intro host top hops token info s h s' H. unfold Client_NewRemoteServer, Init_New_Client in H. cbn [opt ctype_eqb] in H. set (k := cf_cloakusertonick (s_conf s)).
  bd H as h0 s0 H0. rdgets H0. bd H as tm s0 H0. unfold now in H0. rdgets H0. bd H as u1 s1 H1. apply modify_ok in H1. set (n := s_next s) in *.
  assert (D : data n s (fun _ => True) s1) by (subst s1; split; auto). clear H1.
  bd H as u2 s2 H2. unfold Client_SetID in H2. bd H2 as v sx Hx. unfold cf in Hx. rdgets Hx.
  assert (D2 : data n s (fun c => cl_id c = strlcpy CLIENT_ID_LEN host) s2).
  { eapply data_upd; [exact H2| |exact D]. unfold set_id. intros c _. destruct (cf_cloakusertonick _); reflexivity. } clear H2 D.
  bd H as u3 s3 H3. apply ret_ok in H3. destruct H3 as [_ ->].
  bd H as u4 s4 H4. unfold Client_SetHostname in H4. bd H4 as cx sx Hx. apply cli_ok in Hx. destruct Hx as [_ ->]. bd H4 as ck0 sx Hx. unfold cf in Hx. rdgets Hx. bd H4 as sa sx Hx. unfold cf in Hx. rdgets Hx. cbv zeta in H4.
  assert (D4 : data n s (fun c => cl_id c = strlcpy CLIENT_ID_LEN host) s4).
  { match type of H4 with (if ?b then _ else _) _ = _ => destruct b end; (eapply data_upd; [exact H4| |exact D2]; intros c E; exact E). } clear H4 D2.
  bd H as u5 s5 H5. unfold Client_SetInfo in H5. bd H5 as v sx Hx. unfold cf in Hx. rdgets Hx. rewrite (proj1 D4) in H5. fold k in H5.
  set (Q := fun c => cl_info c = strlcpy CLIENT_INFO_LEN (if k then strlcpy CLIENT_ID_LEN host else info)).
  assert (D5 : data n s Q s5).
  { eapply data_upd; [exact H5| |exact D4]. unfold set_info, Q. cbv beta. intros c E1. cbn [set_cl_info cl_info]. rewrite E1. reflexivity. } clear H5 D4.
  bd H as u6 s6 H6. assert (D6 : data n s Q s6).
  { eapply data_upd; [exact H6| |exact D5]. intros c E. exact E. } clear H6 D5.
  bd H as u7 s7 H7. apply ret_ok in H7. destruct H7 as [_ ->].
  bd H as u8 s8 H8. assert (D8 : data n s Q s8).
  { unfold whenM, Generate_MyToken in H8. bd H8 as l sx Hl. unfold Clients in Hl. rdgets Hl. bd H8 as used sy Hu. apply mseq_tokens_ok in Hu. destruct Hu as [-> _]. eapply data_upd; [exact H8| |exact D6]. intros c E. exact E. } clear H8 D6.
  bd H as a s9 H9. unfold Client_HasMode in H9. bd H9 as cx2 sx Hx9. apply cli_ok in Hx9. destruct Hx9 as [_ ->]. rdret H9.
  bd H as u10 s10 H10. assert (D10 : data n s Q s10).
  { unfold whenM in H10. match type of H10 with (if ?b then _ else _) _ = _ => destruct b end; [eapply data_upd; [exact H10| |exact D8]; intros c E; exact E|apply ret_ok in H10; destruct H10 as [_ ->]; exact D8]. }
  clear H10. bd H as u11 s11 H11. apply modify_ok in H11. bd H as u12 s12 H12. destruct u12. apply Adjust_Counters_ok in H12. destruct H12 as (m1 & m2 & ->). apply ret_ok in H. destruct H as [-> ->].
  subst s11. exact (proj2 D10).
Qed.
Lemma introduce_server : forall s h c i p u d req b s', wf s -> tree s -> keyed s -> icli s -> server_settled s -> assoc h (s_heap s) = Some c -> cl_conn c = Some i -> cl_type c = T_SERVER -> h <> This_Server ->
  rq_prefix req = Some p -> the_client s p u d -> cl_id d <> [] ->
  List.length (rq_args req) = 4%nat -> List.length (arg req 0) <= CLIENT_ID_LEN -> (forall g x, known s g x -> ~ same_name (cl_id x) (arg req 0)) -> server_introduce h i req s = Ok b s' ->
  exists g e, assoc g (s_heap s) = None /\ assoc g (s_heap s') = Some e /\
  cl_type e = T_SERVER /\ cl_id e = strlcpy CLIENT_ID_LEN (arg req 0) /\ cl_conn e = None /\ cl_introducer e = Some h /\ cl_topserver e = Some u /\ cl_hops e = atoi (arg req 1) /\ cl_token e = atoi (arg req 2) /\ cl_info e = strlcpy CLIENT_INFO_LEN (if cf_cloakusertonick (s_conf s) then strlcpy CLIENT_ID_LEN (arg req 0) else arg req 3) /\
  forall j, is_open s j = true -> ~ warned s j -> (forall x, link s j x -> written s s' j (if (i =? j)%nat then [] else [relayed d (server_text e)])) /\ ((forall x, ~ link s j x) -> written s s' j []).
Proof.
  intros s h c i p u d req b s' W T KY IC SS AH CI CT HM RP TC NI LA LI NC H. unfold server_introduce in H. unfold argc in H. rewrite LA in H. cbn [Nat.eqb negb] in H. cbv zeta in H.
  apply and_then_ok in H. destruct H as (ok & s1 & H1 & H).
  assert (Q : ok = true /\ s1 = s).
  { unfold Client_CheckID in H1. bd H1 as c0 s2 H2. apply cli_ok in H2. destruct H2 as [A2 ->]. rewrite AH in A2. injection A2 as <-. bd H1 as i0 s2 H2. apply nonnull_ok in H2. destruct H2 as [_ ->]. replace (CLIENT_ID_LEN <? List.length (arg req 0))%nat with false in H1 by (symmetry; apply Nat.ltb_ge; exact LI).
    bd H1 as l s2 H2. unfold Clients in H2. rdgets H2. bd H1 as o s2 H2. apply mfind_ok in H2; [|intros a b0 t Ht; minv Ht; reflexivity]. destruct H2 as [-> H2]. destruct o as [g|]; [|apply ret_ok in H1; exact H1].
    destruct H2 as [I H2]. bd H2 as x s2 H3. apply cli_ok in H3. destruct H3 as [A3 ->]. apply ret_ok in H2. destruct H2 as [H2 _]. exfalso. apply (NC g x); [split; [exact I|rewrite lookup_assoc; exact A3]|apply same_name_iff; symmetry; exact H2]. }
  destruct Q as [-> ->]. clear H1. destruct H as [[_ H]|[F _]]; [|discriminate F]. rewrite RP in H. bd H as o s1 H1. destruct (search_the _ _ _ _ _ _ IC TC NI H1) as [-> ->]. clear H1.
  bd H as n s1 H3. pose proof (init_info _ _ _ _ _ _ _ _ _ H3) as ID. unfold Client_NewRemoteServer in H3. destruct (wf_fresh _ W) as [F1 F2]. destruct (Init_New_Client_ok _ _ _ _ _ _ _ _ _ _ _ _ _ _ _ H3 F1 F2) as (En & e & a1 & a2 & FR & Es). clear H3.
  assert (G1 : grown s s1 e) by (subst s1 n; split; reflexivity). assert (EC : s_chans s1 = s_chans s /\ s_members s1 = s_members s) by (subst s1 n; split; reflexivity).
  assert (EI : cl_info e = strlcpy CLIENT_INFO_LEN (if cf_cloakusertonick (s_conf s) then strlcpy CLIENT_ID_LEN (arg req 0) else arg req 3)). { apply (ID e). rewrite (gr_heap _ _ _ G1), En. cbn [assoc]. rewrite Nat.eqb_refl. reflexivity. } clear ID Es. subst n. destruct FR. destruct EC as [EC EM].
  assert (AU : assoc u (s_heap s) = Some d) by (destruct TC as [[_ A] _]; rewrite lookup_assoc in A; exact A).
  pose proof G1 as [K1 K2 K3 K4].
  assert (T1 : tree s1). { apply (tree_new s s1 e W T K1 K2); [|intros j E; congruence]. intros _. split; auto. exists h, c. auto. }
  assert (KY1 : keyed s1). { destruct KY. split; [rewrite EC|rewrite EM|rewrite K3]; assumption. }
  assert (OLD : forall k z, assoc k (s_heap s) = Some z -> assoc k (s_heap s1) = Some z). { intros k z A. rewrite K1. cbn [assoc]. destruct (Nat.eqb_spec k (s_next s)) as [-> |]; [|exact A]. exfalso. apply F1. eapply assoc_key; eauto. }
  assert (NEW : assoc (s_next s) (s_heap s1) = Some e). { rewrite K1. cbn [assoc]. rewrite Nat.eqb_refl. reflexivity. }
  assert (SS1 : server_settled s1). { intros me M. apply SS. destruct (tr_me _ T) as (me0 & M0 & _). rewrite lookup_assoc in *. rewrite (OLD _ _ M0) in M. injection M as <-. exact M0. }
  bd H as hops s2 H4. assert (s2 = s1). { unfold Client_Hops in H4. bd H4 as z s3 H5. apply cli_ok in H5. destruct H5 as [_ ->]. apply ret_ok in H4. apply H4. } subst s2. clear H4.
  bd H as str s2 H4. assert (s2 = s1).
  { destruct (_ && _) in H4; [|apply ret_ok in H4; apply H4]. apply vsn_ok in H4. destruct H4 as (v & M & _). destruct (prints_ID u d _ s1 _ (OLD _ _ AU) (prints_nil s1) _ _ M) as [_ ->]. reflexivity. } subst s2. clear H4.
  bd H as u1 s2 H4. eapply snotice_quiet in H4; [|exact T1|exact KY1|exact SS1|eapply prints_ID; [exact NEW|]; eapply prints_ID; [exact (OLD _ _ AH)|]; apply prints_S; apply prints_ok; [reflexivity|]; apply prints_S, prints_nil].
  destruct H4 as [V1 W1]. bd H as u2 s3 H5. apply ret_ok in H. destruct H as [_ ->].
  assert (ND : NoDup (s_clients s2)). { rewrite (v_clients _ _ V1), K2. constructor; [exact F2|]. apply (wf_clients _ W). }
  assert (NEW2 : assoc (s_next s) (s_heap s2) = Some e) by (rewrite (v_heap _ _ V1); exact NEW).
  assert (PA : prints (server_args (s_next s)) s2 [FS (id_of e); FD (cl_hops e + 1); FD (cl_mytoken e); FS (cl_info e)]).
  { unfold server_args. eapply prints_ID; [exact NEW2|]. apply prints_ok; [apply hops_ok; exact NEW2|]. apply prints_ok; [apply HandSync.token_ok; exact NEW2|]. apply prints_ok; [apply info_ok; exact NEW2|]. apply prints_nil. }
  unfold IRC_WriteStrServersPrefix in H5. destruct (cast (Some h) u None _ _ _ s2 u2 s3 d (view_tree _ _ V1 T1) ND (eq_trans (f_equal (assoc u) (v_heap _ _ V1)) (OLD _ _ AU)) PA H5) as (V2 & _ & C2).
  exists (s_next s), e. split; [apply assoc_nokey; exact F1|]. split; [rewrite (v_heap _ _ V2); exact NEW2|]. do 8 (split; [assumption|]).
  intros j OP NW. assert (W0 : written s1 s2 j []). { apply W1. intro X. apply NW. eapply grown_warned; eauto. }
  assert (OP2 : is_open s2 j = true). { rewrite (view_open _ _ j V1). unfold is_open. rewrite K3. exact OP. }
  destruct (C2 j) as [C3 C4].
  assert (W4 : forall l, written s2 s3 j l -> written s s3 j l). { intros l X. pose proof (written_app _ _ _ _ _ _ W0 X) as (y & Y1 & Y2). exists y. rewrite Y1, K4. auto. }
  assert (HL : forall g, hit s2 (Some h) None g j -> g <> h /\ exists x, known s g x /\ cl_type x = T_SERVER /\ cl_conn x = Some j).
  { intros g (x & A & TS & CJ & NE & _). rewrite (v_heap _ _ V1), K1 in A. cbn [assoc] in A. destruct (Nat.eqb_spec g (s_next s)) as [-> |]; [injection A as <-; congruence|]. split; [intros ->; apply NE; reflexivity|]. exists x. split; [split; [eapply tr_listed; eauto|rewrite lookup_assoc; exact A]|auto]. }
  split.
  - intros x (g & [I A] & TS & CJ). rewrite lookup_assoc in A. apply W4. destruct (Nat.eqb_spec i j) as [<- |NE].
    + apply C4. intros _ g2 HT. apply HL in HT. destruct HT as (N2 & x2 & [_ A2] & _ & CJ2). rewrite lookup_assoc in A2. apply N2. eapply (conn_client s); eauto.
    + unfold relayed, server_text. rewrite <- fmt_server. replace (cl_id d) with (id_of d) by (unfold id_of; destruct (cl_id d); congruence). apply (C3 OP2 g). exists x. split; [rewrite (v_heap _ _ V1); auto|]. split; auto. split; auto. split; auto. intros E. injection E as <-. congruence.
  - intro Q. apply W4. apply C4. intros _ g HT. apply HL in HT. destruct HT as (_ & x & K & TS & CJ). apply (Q x). exists g. auto.
Qed.
Theorem server_introduced : forall s i h c text p u d name id hops tok info b s', live s -> undisturbed s -> server_settled s -> client_of s i h c -> cl_type c = T_SERVER ->
  parse_line (trim text) = Some (mkReq (Some p) name [id; hops; tok; info]) -> same_name name (B "SERVER") -> the_client s p u d -> next_hop s u h -> cl_id d <> [] ->
  (cf_scrubctcp (s_conf s) = true -> ~ exists x y, trim text = x ++ ":"%char :: "001"%char :: y) ->
  (List.length id <= 64)%nat -> (forall g x, known s g x -> ~ same_name (cl_id x) id) -> Parse_Request i text s = Ok b s' ->
  exists g e, lookup g (s_heap s) = None /\ lookup g (s_heap s') = Some e /\ cl_type e = T_SERVER /\ cl_id e = firstn 63 id /\ cl_conn e = None /\ cl_introducer e = Some h /\ cl_topserver e = Some u /\ cl_hops e = atoi hops /\ cl_token e = atoi tok /\ cl_info e = firstn 127 (if cf_cloakusertonick (s_conf s) then firstn 63 id else info) /\
  forall j, is_open s j = true -> ~ warned s j ->
  (forall x, link s j x -> written s s' j (if (i =? j)%nat then [] else [relayed d (server_text e)])) /\
  ((forall x, ~ link s j x) -> written s s' j []).
Proof.
  intros s i h c text p u d name id hops tok info b s' L U SS C TS P N TP NX NI SC LI NC H. set (args := [id; hops; tok; info]) in *.
  assert (AH : assoc h (s_heap s) = Some c) by (destruct C as [_ A]; rewrite lookup_assoc in A; exact A).
  assert (V : view s (set_s_wcounter 0 s)) by (split; reflexivity).
  assert (T : tree s) by (apply live_itree; auto).
  assert (W : wf (set_s_wcounter 0 s)). { destruct (live_wf2 _ L) as [A _]. destruct A; split; assumption. }
  assert (CI : cl_conn c = Some i). { destruct C as [(cn & C1 & C2) _]. rewrite lookup_assoc in C1. destruct (tr_c2h _ T _ _ C1) as (h2 & c2 & Q1 & Q2 & Q3). rewrite C2 in Q1. injection Q1 as <-. rewrite AH in Q2. injection Q2 as <-. exact Q3. }
  assert (HM : h <> This_Server). { intros ->. destruct (tr_me _ T) as (me & M1 & _ & M2 & _). rewrite AH in M1. injection M1 as <-. congruence. }
  assert (R : IRC_SERVER h (mkReq (Some p) name args) (set_s_wcounter 0 s) = Ok b s').
  { apply (run_link s i h c text "SERVER" args u d p name (mkCommand "SERVER" IRC_SERVER US_ANY 0 None 0) b s' L C TS P N TP SC NX NI); [reflexivity|rewrite TS; reflexivity|reflexivity|cbn; lia|intros m E; discriminate E|exact H]. }
  unfold IRC_SERVER in R. bd R as c0 s1 H1. apply cli_ok in H1. destruct H1 as [Hc ->]. assert (c0 = c) by (change (assoc h (s_heap s) = Some c0) in Hc; congruence). subst c0. rewrite CI, TS in R.
  destruct (introduce_server (set_s_wcounter 0 s) h c i p u d (mkReq (Some p) name args) b s' W (view_tree _ _ V T) (wf_keyed _ W) (live_icli _ L) SS AH CI TS HM eq_refl TP NI eq_refl LI NC R) as (g & e & A1 & A2 & X1 & X2 & X3 & X4 & X5 & X6 & X7 & X8 & Y).
  exists g, e. rewrite !lookup_assoc. split; [exact A1|]. split; [exact A2|]. split; [exact X1|]. split; [rewrite X2; unfold CLIENT_ID_LEN; rewrite strlcpy_is_firstn by lia; reflexivity|]. do 5 (split; [assumption|]). split. { rewrite X8. change (s_conf (set_s_wcounter 0 s)) with (s_conf s). unfold arg, args. cbn [rq_args nth]. unfold CLIENT_INFO_LEN, CLIENT_ID_LEN. rewrite !strlcpy_is_firstn by lia. reflexivity. }
  intros j OP NW. refine (Y j OP _). intro X. apply NW. exact (warned_view s (set_s_wcounter 0 s) j V X).
Qed.
