(** What is forwarded to other servers (C28, C29). *)
From Coq Require Import List Ascii String ZArith NArith Bool Lia Arith.
From Coq Require Import Relations RelationClasses.
From Verif Require Import Bytes Strl Match Lists ListsProofs Hash ParseReq State Messages Monad Core Write Info Chan Mode Msg Login Oper Server Dispatch Conn.
From Verif Require Import Rel RelWrite RelInfo RelBase RelChan RelSrv RelInit RelKey RelCmd RelComp WF RelGone Frame Tree Inv1 Inv2 Inv4 Live Spec Observ Unch HandOper HandPrefix HandLine Frames Attrib HandGain HandUser HandChan HandJoin HandKick Output HandDo HandSend SpecLink.
Import ListNotations.
Local Open Scope m_scope.

Lemma written_app : forall s s1 s2 j a b, written s s1 j a -> written s1 s2 j b -> written s s2 j (a ++ b).
Proof.
  intros s s1 s2 j a b (x & E1 & ->) (y & E2 & ->). exists (y ++ x). split; [rewrite E2, E1, app_assoc; reflexivity|]. rewrite filter_app, map_app, rev_app_distr. reflexivity.
Qed.
Lemma written_nil : forall s s' j, s_out s' = s_out s -> written s s' j [].
Proof. intros s s' j E. exists []. split; auto. Qed.
Lemma written_to : forall s s' j a, written s s' j a -> forall s2, s_out s2 = s_out s' -> written s s2 j a.
Proof. intros s s' j a (x & E & ->) s2 E2. exists x. split; congruence. Qed.
(** the servers which get a broadcast *)
Definition hit (s : state) (except : option handle) (flag : option ascii) (g : handle) (j : connid) : Prop :=
  exists d, assoc g (s_heap s) = Some d /\ cl_type d = T_SERVER /\ cl_conn d = Some j /\ except <> Some g /\ match flag with None => True | Some f => strchr0 f (cl_flags d) = true end.
Lemma view_hit : forall s s' e f g j, view s s' -> (hit s' e f g j <-> hit s e f g j).
Proof. intros s s' e f g j V. unfold hit. rewrite (v_heap _ _ V). reflexivity. Qed.
Lemma cast_list : forall pref p t except flag l s u s', tree s -> NoDup l -> assoc pref (s_heap s) = Some p ->
  mfor l (fun h => c <- cli h ;;
    if ctype_eqb (cl_type c) T_SERVER && (match cl_conn c with Some _ => true | None => false end) && negb (heq h This_Server) && negb (oheq except h)
    then if match flag with None => true | Some f => strchr0 f (cl_flags c) end then Write_Server h pref (firstn 999 (cut0 t)) ;;; ret tt else ret tt else ret tt) s = Ok u s' ->
  view s s' /\ (forall i, flag_of s' i = flag_of s i) /\
  forall j, (is_open s j = true -> forall g, In g l -> hit s except flag g j -> written s s' j [wire (":"%char :: id_of p ++ " "%char :: t)]) /\
    ((is_open s j = true -> forall g, In g l -> ~ hit s except flag g j) -> written s s' j []).
Proof.
  intros pref p t except flag. induction l as [|h l IH]; intros s u s' T N A H; cbn [mfor] in H.
  - apply ret_ok in H. destruct H as [_ ->]. split; [reflexivity|]. split; auto. intro j. split; [intros _ g []|intros _; apply written_nil; reflexivity].
  - bd H as u1 s1 H1. inversion N as [|a q N1 N2]; subst a q.
    assert (G : view s s1 /\ (forall i, flag_of s1 i = flag_of s i) /\ forall j, (is_open s j = true -> hit s except flag h j -> written s s1 j [wire (":"%char :: id_of p ++ " "%char :: t)]) /\ ((is_open s j = true -> ~ hit s except flag h j) -> written s s1 j [])).
    { bd H1 as c s2 H2. apply cli_ok in H2. destruct H2 as [AC ->].
      assert (Q : (exists j, hit s except flag h j /\ cl_conn c = Some j /\ (Write_Server h pref (firstn 999 (cut0 t)) ;;; ret tt) s = Ok u1 s1) \/ (s1 = s /\ forall j, ~ hit s except flag h j)).
      { destruct (_ && _) eqn:E in H1.
        - apply andb_true_iff in E. destruct E as [E E4]. apply andb_true_iff in E. destruct E as [E E3]. apply andb_true_iff in E. destruct E as [E1 E2]. apply ctype_eqb_eq in E1. destruct (cl_conn c) as [j|] eqn:CJ; [|discriminate E2].
          assert (NE : except <> Some h) by (intros ->; cbn [oheq] in E4; rewrite Nat.eqb_refl in E4; discriminate E4).
          destruct (match flag with None => true | Some f => strchr0 f (cl_flags c) end) eqn:EF in H1.
          + left. exists j. split; auto. exists c. split; auto. split; auto. split; auto. split; auto. destruct flag; auto.
          + right. apply ret_ok in H1. destruct H1 as [_ ->]. split; auto. intros j' (d & A2 & _ & _ & _ & F). rewrite AC in A2. injection A2 as <-. destruct flag; congruence.
        - right. apply ret_ok in H1. destruct H1 as [_ ->]. split; auto. intros j (d & A2 & TS & CJ & NE & _). rewrite AC in A2. injection A2 as <-. rewrite TS, CJ in E. change (ctype_eqb T_SERVER T_SERVER) with true in E. cbn [andb] in E.
          assert (NT : heq h This_Server = false). { apply Nat.eqb_neq. intros ->. destruct (tr_me _ T) as (me & M1 & _ & M2 & _). rewrite AC in M1. injection M1 as <-. congruence. } rewrite NT in E. cbn [negb andb] in E. apply negb_false_iff in E. destruct except as [x|]; [|discriminate E]. apply Nat.eqb_eq in E. subst x. auto. }
      destruct Q as [(j & HT & CJ & H2)|[-> NH]].
      2: { split; [reflexivity|]. split; auto. intro j. split; [intros _ X; destruct (NH _ X)|intros _; apply written_nil; reflexivity]. }
      bd H2 as b s2 H3. apply ret_ok in H2. destruct H2 as [_ <-]. unfold Write_Server in H3. bd H3 as nh s2 H4. apply Client_NextHop_next in H4. destruct H4 as [-> NX]. assert (nh = h) by (eapply local_hop; eauto). subst nh.
      bd H3 as ty s2 H4. apply is_type_ok in H4. destruct H4 as (-> & c2 & A2 & ->). bd H3 as u2 s2 H4.
      assert (s2 = s). { destruct (ctype_eqb _ _) in H4; [apply ret_ok in H4; tauto|discriminate H4]. } subst s2. bd H3 as o s2 H5. unfold Client_Conn in H5. bd H5 as c3 s3 H6. apply cli_ok in H6. destruct H6 as [A3 ->]. apply ret_ok in H5. destruct H5 as [-> ->].
      rewrite AC in A3. injection A3 as <-. rewrite CJ in H3. bd H3 as i s2 H5. apply nonnull_ok in H5. destruct H5 as [EI ->]. injection EI as <-.
      destruct (Conn_WriteStr_ok _ _ _ _ _ _ H3) as (vals & s3 & M & [W1 W2 W3 W4]). apply mseq_cons_ok in M. destruct M as (a & s4 & v & M1 & M & ->). apply aID_ok in M1. destruct M1 as [-> (f' & A' & ->)]. rewrite A in A'. injection A' as <-.
      apply mseq_cons_ok in M. destruct M as (a & s4 & v2 & M1 & M & ->). apply aS_ok in M1. destruct M1 as [-> ->]. apply mseq_nil_ok in M. destruct M as [-> ->]. rewrite (wire_pre _ _ _ eq_refl) in W4. split; auto. split; auto. intro k.
      assert (HJ : forall k, hit s except flag h k -> k = j). { intros k0 (d & A4 & _ & CK & _). rewrite AC in A4. injection A4 as <-. congruence. }
      split.
      - intros OP HK. apply HJ in HK. subst k. rewrite OP in W3. subst b. pose proof (written_one _ _ _ _ W4 j) as Q. rewrite Nat.eqb_refl in Q. exact Q.
      - intro NH. destruct b.
        + pose proof (written_one _ _ _ _ W4 k) as Q. destruct (Nat.eqb_spec j k) as [-> |]; [|exact Q]. exfalso. apply NH; auto.
        + apply written_nil. exact W4. }
    destruct G as (V & FL & G). destruct (IH s1 u s') as (V2 & FL2 & G2); auto; [eapply view_tree; eauto|rewrite (v_heap _ _ V); exact A|]. split; [etransitivity; eauto|]. split; [intro; rewrite FL2; auto|].
    intro j. specialize (G j). specialize (G2 j). rewrite (view_open _ _ _ V) in G2. destruct G as [G3 G4]. destruct G2 as [G5 G6]. split.
    + intros OP g [<- |I] HT.
      * change [wire (":"%char :: id_of p ++ " "%char :: t)] with ([wire (":"%char :: id_of p ++ " "%char :: t)] ++ []). eapply written_app; [apply G3; auto|]. apply G6. intros _ g I X. apply (view_hit _ _ _ _ _ _ V) in X. destruct HT as (d & K1 & _ & K2 & _). destruct X as (d' & K3 & _ & K4 & _). destruct (conn_client _ _ _ _ _ _ T K1 K3 K2 K4) as [-> _]. contradiction.
      * change [wire (":"%char :: id_of p ++ " "%char :: t)] with ([] ++ [wire (":"%char :: id_of p ++ " "%char :: t)]). eapply written_app; [apply G4|apply (G5 OP g I); apply (view_hit _ _ _ _ _ _ V); exact HT]. intros _ X. destruct HT as (d & K1 & _ & K2 & _). destruct X as (d' & K3 & _ & K4 & _). destruct (conn_client _ _ _ _ _ _ T K1 K3 K2 K4) as [-> _]. contradiction.
    + intro X. change (@nil bytes) with (@nil bytes ++ []). eapply written_app; [apply G4; intros OP; apply X; auto; left; auto|apply G6]. intros OP g I Q. apply (X OP g); [right; auto|]. apply (view_hit _ _ _ _ _ _ V). exact Q.
Qed.
(** a broadcast: every directly linked server, except the given one, gets the line exactly once *)
Lemma cast : forall except pref flag f l vals s u s' p, tree s -> NoDup (s_clients s) -> assoc pref (s_heap s) = Some p -> prints l s vals ->
  IRC_WriteStrServersPrefixFlag except pref flag f l s = Ok u s' ->
  view s s' /\ (forall i, flag_of s' i = flag_of s i) /\
  forall j, (is_open s j = true -> forall g, hit s except flag g j -> written s s' j [on_wire (":"%char :: id_of p ++ " "%char :: fmt (B f) vals)]) /\
    ((is_open s j = true -> forall g, ~ hit s except flag g j) -> written s s' j []).
Proof.
  intros except pref flag f l vals s u s' p T N A M H. unfold IRC_WriteStrServersPrefixFlag in H. bd H as buf s1 H1. apply vsn_ok in H1. destruct H1 as (v2 & M2 & ->). destruct (M _ _ M2) as [-> ->].
  unfold Servers_CB in H. bd H as cs s1 H1. unfold Clients in H1. rdgets H1. destruct (cast_list _ _ _ _ _ _ _ _ _ T N A H) as (V & FL & G). split; auto. split; auto. intro j. destruct (G j) as [G1 G2]. split.
  - intros OP g HT. apply (G1 OP g); auto. destruct HT as (d & K & _). eapply tr_listed; eauto.
  - intro X. apply G2. intros OP g _. apply X; auto.
Qed.
Lemma search_the : forall s p u d o s', icli s -> the_client s p u d -> cl_id d <> [] -> Client_Search p s = Ok o s' -> s' = s /\ o = Some u.
Proof.
  intros s p u d o s' I (K & C & UN) NE H. destruct (search_called _ _ _ _ I H) as [-> Q]. split; auto. destruct o as [x|]; [f_equal; apply UN; exact Q|].
  exfalso. pose proof (Q _ C) as E. destruct C as (d' & K' & N). destruct K as [_ K]. destruct K' as [_ K']. rewrite K in K'. injection K' as <-. rewrite E in N. apply same_name_iff, caseeq_len in N. destruct (cl_id d); [auto|discriminate N].
Qed.
Lemma view_the : forall s s1 p u d, view s s1 -> the_client s p u d -> the_client s1 p u d.
Proof. intros s s1 p u d V. unfold the_client, called, known. rewrite (v_clients _ _ V), (v_heap _ _ V). auto. Qed.
Lemma run_as : forall s i h c text n args u d cmd b s', live s -> client_of s i h c -> acts s h c text n args u d -> nick_fits d ->
  find (fun c => String.eqb (cm_name c) n) My_Commands = Some cmd -> type_in (cl_type c) (cm_types cmd) = true ->
  cm_min cmd <= List.length args -> (forall m, cm_max cmd = Some m -> List.length args <= m) -> Parse_Request i text s = Ok b s' ->
  exists req s1, view s s1 /\ s_out s1 = s_out s /\ same_name (rq_command req) (B n) /\ rq_args req = args /\ cm_fun cmd h req s1 = Ok b s' /\
    (cl_type c = T_USER /\ rq_prefix req = None /\ u = h /\ d = c \/ cl_type c = T_SERVER /\ exists p, rq_prefix req = Some p /\ the_client s p u d /\ forall o s2, Client_Search p s1 = Ok o s2 -> s2 = s1 /\ o = Some u).
Proof.
  intros s i h c text n args u d cmd b s' L C [(T & O & -> & ->)|(T & (p & name & P & N & TC) & SC & TD & NX)] [NI NL] F TI MI MA H.
  { destruct (run_ordered s i h c text n args cmd b s') as (name & s1 & V & O1 & SN & H1); auto; [congruence|]. exists (mkReq None name args), s1. auto 10. }
  unfold Parse_Request in H. cbv zeta in H. bd H as sc s1 H1. unfold cf in H1. rdgets H1.
  assert (NS : cf_scrubctcp (s_conf s) && ScrubCTCP (trim text) = false). { apply andb_false_iff. destruct (cf_scrubctcp (s_conf s)); [right|auto]. destruct (ScrubCTCP (trim text)) eqn:E; auto. exfalso. apply SC; auto. apply scrub_ctcp. exact E. }
  rewrite NS, P in H. bd H as v s1 H1. unfold Validate_Prefix in H1. bd H1 as o s2 H2. destruct (client_of_get _ _ _ _ _ _ C H2) as [-> ->]. clear H2.
  bd H1 as h' s2 H2. apply nonnull_ok in H2. destruct H2 as [E ->]. injection E as <-. bd H1 as t s2 H2. destruct (client_of_type _ _ _ _ _ _ C H2) as [-> ->]. clear H2.
  bd H1 as cn s2 H2. apply con_ok in H2. destruct H2 as [-> _]. cbn [rq_prefix] in H1. rewrite T in H1. change (is_registered T_SERVER) with true in H1. cbn [negb] in H1. bd H1 as o s2 H2.
  destruct (search_the _ _ _ _ _ _ (live_icli _ L) TC NI H2) as [-> ->]. clear H2. bd H1 as nh s2 H2. apply Client_NextHop_next in H2. destruct H2 as [-> N2]. rewrite (next_hop_fun _ _ _ N2 _ NX) in H1. unfold heq in H1. rewrite Nat.eqb_refl in H1. cbn [negb] in H1. apply ret_ok in H1. destruct H1 as [-> ->].
  apply (Handle_Request_cmd _ _ _ _ (mkReq (Some p) name args) _ _ _ _ C N F) in H. unfold run_command in H. rewrite TI in H. cbn [negb] in H. bd H as u1 s1 H1. unfold argc in H. cbn [rq_args] in H.
  assert (V : view s s1 /\ s_out s1 = s_out s). { unfold whenM in H1. destruct (negb _) in H1; [destruct (SetPenalty_view _ _ _ _ _ H1) as (V & _ & O); auto|]. apply ret_ok in H1. destruct H1 as [_ ->]. split; reflexivity. }
  replace ((List.length args <? cm_min cmd) || match cm_max cmd with Some m => m <? List.length args | None => false end) with false in H.
  2: { symmetry. apply orb_false_iff. split; [apply Nat.ltb_ge; exact MI|]. destruct (cm_max cmd) as [m|]; auto. apply Nat.ltb_ge. apply MA. reflexivity. }
  bd H as u2 s2 H2. apply modify_ok in H2. subst s2. assert (V2 : view s (set_s_wcounter 0 s1)) by (transitivity s1; [apply V|split; reflexivity]).
  exists (mkReq (Some p) name args), (set_s_wcounter 0 s1). split; auto. split; [apply V|]. split; auto. split; auto. split; auto. right. split; auto. exists p. split; auto. split; auto. intros o s2 H3.
  eapply search_the; [|eapply view_the; [exact V2|exact TC]|exact NI|exact H3]. intros x cx A. rewrite (v_heap _ _ V2) in A. exact (live_icli _ L _ _ A).
Qed.
Lemma sender_as : forall h c req u d s1 k b s', assoc h (s_heap s1) = Some c ->
  (cl_type c = T_USER /\ rq_prefix req = None /\ u = h /\ d = c \/ cl_type c = T_SERVER /\ exists p, rq_prefix req = Some p /\ the_client s1 p u d /\ forall o s2, Client_Search p s1 = Ok o s2 -> s2 = s1 /\ o = Some u) ->
  with_sender h req k s1 = Ok b s' -> k u s1 = Ok b s'.
Proof.
  intros h c req u d s1 k b s' A Q H. unfold with_sender in H. bd H as t s2 H1. apply is_type_ok in H1. destruct H1 as (-> & c1 & A1 & ->). rewrite A in A1. injection A1 as <-. destruct Q as [(T & P & -> & ->)|(T & p & P & TC & SE)].
  - rewrite T in H. change (ctype_eqb T_USER T_SERVER) with false in H. exact H.
  - rewrite T, P in H. change (ctype_eqb T_SERVER T_SERVER) with true in H. cbv iota in H. bd H as o s2 H1. destruct (SE _ _ H1) as [-> ->]. exact H.
Qed.
(** the user who acts *)
Lemma actor : forall s i h c text n args u d, live s -> undisturbed s -> client_of s i h c -> acts s h c text n args u d -> nick_fits d ->
  tree s /\ keyed s /\ NoDup (s_clients s) /\ assoc h (s_heap s) = Some c /\ cl_conn c = Some i /\ assoc u (s_heap s) = Some d /\ cl_type d = T_USER /\ fits d /\ u <> This_Server /\ next_hop s u h.
Proof.
  intros s i h c text n args u d L U C AC [NI NL]. pose proof (live_itree _ L U) as TR. assert (A : assoc h (s_heap s) = Some c) by (destruct C as [_ C2]; rewrite lookup_assoc in C2; exact C2).
  assert (CI : cl_conn c = Some i). { destruct C as [(cn & C1 & C3) _]. rewrite lookup_assoc in C1. destruct (tr_c2h _ TR _ _ C1) as (h' & c' & K1 & K2 & K3). rewrite C3 in K1. injection K1 as <-. rewrite A in K2. injection K2 as <-. exact K3. }
  assert (Q : assoc u (s_heap s) = Some d /\ cl_type d = T_USER /\ next_hop s u h). { destruct AC as [(T & _ & -> & ->)|(T & (p & name & _ & _ & [K _]) & _ & TD & NX)]; [split; auto; split; auto; eapply NH_direct; [rewrite lookup_assoc; exact A|]; destruct (tr_local _ TR _ _ _ A CI); auto|]. destruct K as [_ K]. rewrite lookup_assoc in K. auto. }
  destruct Q as (AU & TD & NX). split; auto. split; [apply wf_keyed, live_wf; auto|]. split; [apply (wf_clients _ (live_wf _ L))|]. split; auto. split; auto. split; auto. split; auto.
  assert (F : fits d). { destruct (live_icli _ L _ _ AU) as [_ _ Z _ _]. destruct Z. constructor; auto. }
  split; auto. split; auto. intros ->. destruct (tr_me _ TR) as (me & M1 & M2 & _). congruence.
Qed.
Lemma UserHasMode_key : forall ch h x s b s', keyed s -> Channel_UserHasMode ch h x s = Ok b s' -> s' = s /\ is_on s h ch /\ (b = true <-> has_priv s h ch x).
Proof.
  intros ch h x s b s' W H. pose proof (UserHasMode_priv _ _ _ _ _ _ H) as [_ K]. unfold Channel_UserHasMode, Channel_UserModes in H. bd H as ms s1 H1. bd H1 as o s2 H2. unfold Get_Cl2Chan in H2. rdgets H2.
  bd H1 as m s2 H2. apply nonnull_ok in H2. destruct H2 as [F ->]. apply ret_ok in H1. destruct H1 as [-> ->]. apply ret_ok in H. destruct H as [-> ->]. split; auto.
  apply find_some in F. destruct F as [F1 F2]. unfold is_mb, heq in F2. apply andb_true_iff in F2. destruct F2 as [F2 F3]. apply Nat.eqb_eq in F2, F3. split; [exists m; auto|]. split; [exact K|].
  intros (m' & I & E1 & E2 & E3). apply memb_In. rewrite (mb_one s m m'); auto. unfold mpair. congruence.
Qed.
Lemma search_view : forall s s1 name ch k o s2, live s -> view s s1 -> the_channel s name ch k -> Channel_Search name s1 = Ok o s2 -> s2 = s1 /\ o = Some ch.
Proof.
  intros s s1 name ch k o s2 L V TC H. assert (Q : Channel_Search name s = Ok o s) by (unfold Channel_Search in H |- *; unfold gets in H |- *; injection H as <- _; rewrite (v_chans _ _ V); reflexivity).
  destruct (search_one _ _ _ _ _ _ L TC Q) as [_ Q2]. split; [|exact Q2]. unfold Channel_Search, gets in H. injection H as _ <-. reflexivity.
Qed.
(** members that get what is written to a channel for the users of this server only *)
Lemma marks_local : forall s h m j d, tree s -> (marks s h false m j d <-> m <> h /\ assoc m (s_heap s) = Some d /\ cl_conn d = Some j /\ cl_type d <> T_SERVER).
Proof.
  intros s h m j d T. split.
  - intros (cm & x & A & [E|[E1 E2]] & N & NE & A2 & C2); [discriminate E|]. destruct (cl_conn cm) as [j'|] eqn:CM; [|congruence]. assert (x = m) by (eapply local_hop; eauto). subst x. rewrite A in A2. injection A2 as <-. repeat (split; [congruence|]). auto.
  - intros (NE & A & C & TS). exists d, m. split; auto. split; [right; split; congruence|]. split; [|auto]. eapply NH_direct; [rewrite lookup_assoc; exact A|]. destruct (tr_local _ T _ _ _ A C); auto.
Qed.
Lemma chan_local : forall ch h u d f l vals s w s', tree s -> NoDup (map fst (s_conns s)) -> assoc u (s_heap s) = Some d -> settled d -> fits d -> cl_id d <> [] -> prints l s vals ->
  IRC_WriteStrChannelPrefix h ch u false f l s = Ok w s' ->
  view s s' /\ forall j, (is_open s j = true -> forall e g, is_on s g ch -> g <> h -> assoc g (s_heap s) = Some e -> cl_conn e = Some j -> cl_type e <> T_SERVER -> written s s' j [line_from s d e (fmt (B f) vals)]) /\
    ((is_open s j = true -> forall e g, is_on s g ch -> g <> h -> assoc g (s_heap s) = Some e -> cl_conn e = Some j -> cl_type e <> T_SERVER -> False) -> written s s' j []).
Proof.
  intros ch h u d f l vals s w s' T N A S F NI P H. destruct (chan_prefix _ _ _ _ _ _ _ _ _ _ _ T N A S F NI P H) as [V G]. split; auto. intro j. destruct (G j) as [G1 G2]. split.
  - intros OP e g I NE K1 K2 K3. apply (G1 OP g e I). apply marks_local; auto.
  - intro X. apply G2. intros OP m e I M. apply marks_local in M; auto. destruct M as (M1 & M2 & M3 & M4). eapply X; eauto.
Qed.
Lemma fmt_param : forall x y, fmt (B "TOPIC %s :%s") [FS x; FS y] = speech (B "TOPIC") x y.
Proof. intros x y. change (B "TOPIC " ++ x ++ " "%char :: ":"%char :: y ++ [] = speech (B "TOPIC") x y). rewrite app_nil_r. reflexivity. Qed.
Lemma SetTopic_same : forall ch o t s u s', Channel_SetTopic ch o t s = Ok u s' -> s_out s' = s_out s /\ s_heap s' = s_heap s /\ s_conns s' = s_conns s /\ s_conf s' = s_conf s.
Proof.
  intros ch o t s u s' H. unfold Channel_SetTopic in H. bd H as k s1 H1. apply chan_ok in H1. destruct H1 as [_ ->]. bd H as n s1 H1. unfold now in H1. rdgets H1. bd H as u1 s1 H1.
  assert (Q : s_out s1 = s_out s /\ s_heap s1 = s_heap s /\ s_conns s1 = s_conns s /\ s_conf s1 = s_conf s). { destruct (_ <? _) in H1; [apply upd_chan_ok in H1; destruct H1 as (x & _ & ->); auto|]. unfold whenM in H1. destruct (_ <? _) in H1; [apply upd_chan_ok in H1; destruct H1 as (x & _ & ->); auto|apply ret_ok in H1; destruct H1 as [_ ->]; auto]. }
  bd H as w s2 H2. assert (s2 = s1). { destruct o as [x|]; [|apply ret_ok in H2; tauto]. bd H2 as b s3 H3. apply is_type_ok in H3. destruct H3 as (-> & _). destruct b; [apply ret_ok in H2; tauto|]. apply Client_ID_ok in H2. tauto. } subst s2. apply upd_chan_ok in H. destruct H as (x & _ & ->). exact Q.
Qed.
Theorem topic_cast : forall s i h c text name t u d ch k b s', live s -> undisturbed s -> client_of s i h c -> acts s h c text "TOPIC" [name; t] u d -> nick_fits d -> settled d ->
  cf_operservermode (s_conf s) = false -> the_channel s name ch k -> (cl_type c = T_USER -> may_set_topic s u d ch k) -> Parse_Request i text s = Ok b s' ->
  forall j, is_open s j = true ->
  (forall e, link s j e -> written s s' j (if (i =? j)%nat || Ascii.eqb (hd0 (ch_name k)) "&" then [] else [relayed d (speech (B "TOPIC") name t)])) /\
  (forall e, local_on s j ch e -> i <> j -> written s s' j (if beq t (ch_topic k) then [] else [line_from s d e (speech (B "TOPIC") name t)])) /\
  (cl_type c = T_USER -> written s s' i (if is_open s i then [line_from s d c (speech (B "TOPIC") name t)] else [])) /\
  ((forall e, ~ link s j e) -> (forall e, ~ local_on s j ch e) -> i <> j -> written s s' j []).
Proof.
  intros s i h c text name t u d ch k b s' L U C AC NF S OSM TC MS H. destruct (actor _ _ _ _ _ _ _ _ _ L U C AC NF) as (T & KY & NC & AH & CI & AU & TD & F & NU & NX).
  assert (TY : cl_type c = T_USER \/ cl_type c = T_SERVER) by (destruct AC as [(X & _)|(X & _)]; auto).
  eapply run_as in H; [|exact L|exact C|exact AC|exact NF|reflexivity|destruct TY as [-> | ->]; reflexivity|cbn; lia|intros m E; cbn in E; first [discriminate E|injection E as <-; cbn; lia]].
  destruct H as (req & s1 & V & O1 & SN & EA & H & Q). change (IRC_TOPIC h req s1 = Ok b s') in H.
  assert (AH1 : assoc h (s_heap s1) = Some c) by (rewrite (v_heap _ _ V); exact AH). assert (AU1 : assoc u (s_heap s1) = Some d) by (rewrite (v_heap _ _ V); exact AU).
  assert (Q1 : cl_type c = T_USER /\ rq_prefix req = None /\ u = h /\ d = c \/ cl_type c = T_SERVER /\ exists p, rq_prefix req = Some p /\ the_client s1 p u d /\ forall o s2, Client_Search p s1 = Ok o s2 -> s2 = s1 /\ o = Some u).
  { destruct Q as [Q|(Q1 & p & Q2 & Q3 & Q4)]; [left; exact Q|right]. split; auto. exists p. split; auto. split; auto. eapply view_the; eauto. }
  unfold IRC_TOPIC in H. eapply sender_as in H; [|exact AH1|exact Q1]. cbv beta in H. unfold arg, argc in H. rewrite EA in H. cbn [nth List.length Nat.eqb] in H.
  bd H as o s2 H2. destruct (search_view _ _ _ _ _ _ _ L V TC H2) as [-> ->]. clear H2. bd H as srv s2 H2. apply is_type_ok in H2. destruct H2 as (-> & c1 & A1 & ->). rewrite AH1 in A1. injection A1 as <-.
  pose proof (view_keyed _ _ V KY) as KY1. pose proof (view_tree _ _ V T) as T1.
  bd H as power s2 H2. assert (PW : s2 = s1 /\ power = (ctype_eqb (cl_type c) T_SERVER || memb "o" (cl_modes d))).
  { destruct (ctype_eqb (cl_type c) T_SERVER); [apply ret_ok in H2; destruct H2; auto|]. apply HasMode_ok in H2. destruct H2 as (-> & d1 & A1 & ->). rewrite AU1 in A1. injection A1 as <-. auto. }
  clear H2. destruct PW as [-> EP]. bd H as ocm s2 H2. unfold cf in H2. rdgets H2. bd H as mem s2 H2. apply IsMemberOf_on in H2. destruct H2 as [-> MM]. rewrite (view_is_on _ _ _ _ V) in MM.
  assert (AK : assoc ch (s_chans s) = Some k) by (destruct TC as [E _]; unfold exists_chan in E; rewrite lookup_assoc in E; exact E). assert (AK1 : assoc ch (s_chans s1) = Some k) by (rewrite (v_chans _ _ V); exact AK).
  assert (D1 : negb (ctype_eqb (cl_type c) T_SERVER) && negb mem && negb (cf_opercanmode (s_conf s1) && power) = false).
  { destruct TY as [TU|TS]; [|rewrite TS; reflexivity]. rewrite TU in *. change (ctype_eqb T_USER T_SERVER) with false in *. cbn [negb andb orb] in *. destruct (MS eq_refl) as [[E1 E2]|[E1 _]].
    - apply memb_In in E2. rewrite (v_conf _ _ V), E1, EP, E2. cbn. apply andb_false_r.
    - apply MM in E1. rewrite E1. reflexivity. }
  rewrite D1 in H. bd H as tm s2 H2. apply ChHasMode_ok in H2. destruct H2 as (-> & k1 & A1 & ->). rewrite AK1 in A1. injection A1 as <-. bd H as deny s2 H2.
  assert (D2 : s2 = s1 /\ deny = false).
  { destruct (strchr0 "t" (ch_modes k) && negb power) eqn:E in H2; [|apply ret_ok in H2; destruct H2; auto]. apply andb_true_iff in E. destruct E as [E1 E2]. apply negb_true_iff in E2. rewrite E2 in EP. symmetry in EP. apply orb_false_iff in EP. destruct EP as [EP1 EP2].
    assert (HO : half_op s1 u ch /\ is_on s1 u ch). { destruct TY as [TU|TS]; [|rewrite TS in EP1; discriminate EP1]. destruct (MS TU) as [[_ X]|[X1 [X2|[X2|X2]]]]; try (apply memb_In in X2; congruence); try (apply memb_In in X; congruence).
      - exfalso. apply X2. apply strchr0_In; auto. discriminate.
      - unfold half_op, has_priv in *. split; [|apply (view_is_on _ _ _ _ V); exact X1]. rewrite (v_members _ _ V). exact X2. }
    destruct HO as [(x & IX & HP) ON]. apply notM_ok in H2.
    assert (R : forall y z s3, Channel_UserHasMode ch u y s1 = Ok z s3 -> s3 = s1 /\ (z = true <-> has_priv s1 u ch y)) by (intros y z s3 HH; apply UserHasMode_key in HH; tauto).
    apply orM_ok in H2. destruct H2 as (z1 & s3 & G1 & H2). apply R in G1. destruct G1 as [-> G1]. destruct H2 as [(-> & H2 & ->)|(-> & H2)]; [split; auto; destruct deny; auto; discriminate H2|].
    apply orM_ok in H2. destruct H2 as (z2 & s3 & G2 & H2). apply R in G2. destruct G2 as [-> G2]. destruct H2 as [(-> & H2 & ->)|(-> & H2)]; [split; auto; destruct deny; auto; discriminate H2|].
    apply orM_ok in H2. destruct H2 as (z3 & s3 & G3 & H2). apply R in G3. destruct G3 as [-> G3]. destruct H2 as [(-> & H2 & ->)|(-> & H2)]; [split; auto; destruct deny; auto; discriminate H2|].
    apply R in H2. destruct H2 as [-> G4]. split; auto. destruct deny; auto. exfalso. cbn in IX. destruct IX as [<- |[<- |[<- |[<- |[]]]]]; [apply G1 in HP|apply G2 in HP|apply G3 in HP|apply G4 in HP]; discriminate HP. }
  destruct D2 as [-> ->]. bd H as osm s2 H3. unfold cf in H3. rdgets H3. rewrite (v_conf _ _ V), OSM in H. bd H as loc s2 H3. unfold Channel_IsLocal in H3. bd H3 as k1 s3 H4. apply chan_ok in H4. destruct H4 as [A1 ->]. rewrite AK1 in A1. injection A1 as <-. apply ret_ok in H3. destruct H3 as [-> ->].
  set (loc := Ascii.eqb (hd0 (ch_name k)) "&") in *. bd H as u1 s2 H3.
  (* phase 1 *)
  assert (P1 : view s s2 /\ forall j, (is_open s j = true -> forall g, hit s (Some h) None g j -> written s s2 j (if loc then [] else [relayed d (speech (B "TOPIC") name t)])) /\ ((is_open s j = true -> forall g, ~ hit s (Some h) None g j) -> written s s2 j [])).
  { unfold whenM in H3. destruct loc; cbn [negb] in H3.
    - apply ret_ok in H3. destruct H3 as [_ ->]. split; auto. intro j. split; intros; apply written_nil; exact O1.
    - unfold IRC_WriteStrServersPrefix in H3. eapply cast in H3; [|exact T1|rewrite (v_clients _ _ V); exact NC|exact AU1|apply prints_S, prints_S, prints_nil]. destruct H3 as (V2 & _ & G). split; [etransitivity; eauto|]. intro j. destruct (G j) as [G1 G2]. rewrite (view_open _ _ _ V) in G1, G2.
      rewrite fmt_param, (fits_type_id _ (proj1 NF)) in G1. split.
      + intros OP g HT. apply (written_from _ _ _ _ _ O1). apply (G1 OP g). apply (view_hit _ _ _ _ _ _ V). exact HT.
      + intro X. apply (written_from _ _ _ _ _ O1). apply G2. intros OP g HT. apply (X OP g). apply (view_hit _ _ _ _ _ _ V). exact HT. }
  destruct P1 as [V2 P1]. clear H3. bd H as old s3 H3. unfold Channel_Topic in H3. bd H3 as k1 s4 H4. apply chan_ok in H4. destruct H4 as [A1 ->]. rewrite (v_chans _ _ V2), AK in A1. injection A1 as <-. apply ret_ok in H3. destruct H3 as [-> ->].
  bd H as u2 s3 H3.
  (* phase 2 *)
  assert (P2 : view s s3 /\ forall j, (is_open s j = true -> forall e g, is_on s g ch -> g <> h -> assoc g (s_heap s) = Some e -> cl_conn e = Some j -> cl_type e <> T_SERVER -> written s2 s3 j (if beq t (ch_topic k) then [] else [line_from s d e (speech (B "TOPIC") name t)])) /\
    ((is_open s j = true -> forall e g, is_on s g ch -> g <> h -> assoc g (s_heap s) = Some e -> cl_conn e = Some j -> cl_type e <> T_SERVER -> False) -> written s2 s3 j [])).
  { unfold whenM in H3. destruct (beq t (ch_topic k)); cbn [negb] in H3.
    - apply ret_ok in H3. destruct H3 as [_ ->]. split; auto. intro j. split; intros; apply written_nil; reflexivity.
    - eapply chan_local in H3; [|eapply view_tree; eauto|rewrite (view_keys _ _ V2); apply (ky_conns _ KY)|rewrite (v_heap _ _ V2); exact AU|exact S|exact F|apply (proj1 NF)|apply prints_S, prints_S, prints_nil].
      destruct H3 as [V3 G]. split; [etransitivity; eauto|]. intro j. destruct (G j) as [G1 G2]. rewrite (view_open _ _ _ V2), (v_heap _ _ V2) in G1, G2. rewrite fmt_param in G1. split.
      + intros OP e g I NE K1 K2 K3. unfold line_from in G1 |- *. rewrite (view_shown _ _ _ V2) in G1. apply (G1 OP e g); auto. apply (view_is_on _ _ _ _ V2); auto.
      + intro X. apply G2. intros OP e g I. apply (X OP e g). apply (view_is_on _ _ _ _ V2); auto. }
  destruct P2 as [V3 P2]. clear H3. bd H as u3 s4 H3. apply SetTopic_same in H3. destruct H3 as (O4 & E4 & C4 & F4). bd H as usr s5 H4. apply is_type_ok in H4. destruct H4 as (-> & c1 & A1 & ->). rewrite E4, (v_heap _ _ V3), AH in A1. injection A1 as <-.
  (* phase 3 *)
  assert (P3 : forall j, written s3 s' j (if ctype_eqb (cl_type c) T_USER && (i =? j)%nat && is_open s i then [line_from s d c (speech (B "TOPIC") name t)] else [])).
  { destruct (ctype_eqb (cl_type c) T_USER) eqn:TU; cbn [andb].
    - apply ctype_eqb_eq in TU. destruct Q as [(_ & _ & -> & ->)|(X & _)]; [|congruence]. eapply prefix_ok in H; [|rewrite E4, (v_heap _ _ V3); exact AH|exact S|exact F|apply (proj1 NF)|apply prints_S, prints_S, prints_nil].
      destruct H as (x & e & j0 & N1 & A1 & C1 & _ & EB & OO). assert (N2 : next_hop s h x) by (revert N1; apply view_next; rewrite E4, (v_heap _ _ V3); reflexivity). assert (x = h) by (exact (local_hop s h c i x T AH CI N2)). subst x. rewrite E4, (v_heap _ _ V3), AH in A1. injection A1 as <-. rewrite CI in C1. injection C1 as <-.
      assert (OI : is_open s4 i = is_open s i) by (unfold is_open at 1; rewrite C4; change (is_open s3 i = is_open s i); apply view_open; auto). rewrite OI in EB. subst b. rewrite fmt_param in OO. unfold line_from in OO. assert (SM : shown_mask s4 c = shown_mask s c) by (rewrite <- (view_shown _ _ c V3); unfold shown_mask, shown_host, cloak_name; rewrite E4, F4; reflexivity). rewrite SM, O4 in OO. intro j. destruct (is_open s i).
      + pose proof (written_one _ _ _ _ OO j) as W. rewrite andb_true_r. exact W.
      + rewrite andb_false_r. apply written_nil. exact OO.
    - apply ret_ok in H. destruct H as [_ ->]. intro j. apply written_nil. exact O4. }
  intros j OP.
  assert (IJ : forall e g, assoc g (s_heap s) = Some e -> cl_conn e = Some i -> g = h /\ e = c) by (intros e g K1 K2; destruct (conn_client _ _ _ _ _ _ T K1 AH K2 CI); auto).
  assert (NL : forall e, link s j e -> written s2 s3 j []).
  { intros e (g & [_ K] & K2 & K3). rewrite lookup_assoc in K. apply P2. intros _ e' g' _ _ K4 K5 K6. destruct (conn_client _ _ _ _ _ _ T K K4 K3 K5). congruence. }
  split; [|split; [|split]].
  - intros e LK. pose proof LK as (g & [_ K] & K2 & K3). rewrite lookup_assoc in K. destruct (Nat.eqb_spec i j) as [<- |NE]; cbn [orb].
    + destruct (IJ _ _ K K3) as [-> ->]. change (@nil bytes) with ((@nil bytes ++ []) ++ []). eapply written_app; [eapply written_app; [apply P1; intros _ g (x & X1 & _ & X3 & X4 & _); destruct (IJ _ _ X1 X3) as [-> _]; auto|eapply NL; eauto]|]. specialize (P3 i). rewrite K2 in P3. exact P3.
    + assert (EE : forall x : list bytes, x = (x ++ []) ++ []) by (intro; rewrite !app_nil_r; reflexivity). rewrite (EE (if loc then _ else _)). eapply written_app; [eapply written_app; [apply (proj1 (P1 j) OP g)|eapply NL; eauto]|].
      * exists e. split; auto. split; auto. split; auto. split; auto. intro X. injection X as <-. rewrite AH in K. injection K as <-. congruence.
      * specialize (P3 j). destruct (Nat.eqb_spec i j); [contradiction|]. rewrite andb_false_r in P3. exact P3.
  - intros e (g & I & K & K2 & K3) NE. rewrite lookup_assoc in K. match goal with |- written _ _ _ ?x => assert (EE : x = ([] ++ x) ++ []) by (rewrite app_nil_r; reflexivity); rewrite EE end. eapply written_app; [eapply written_app|].
    + apply P1. intros _ g' (x & X1 & X2 & X3 & _). destruct (conn_client _ _ _ _ _ _ T K X1 K2 X3). congruence.
    + apply (proj1 (P2 j) OP e g); auto. intros ->. rewrite AH in K. injection K as <-. congruence.
    + specialize (P3 j). destruct (Nat.eqb_spec i j); [contradiction|]. rewrite andb_false_r in P3. exact P3.
  - intro TU. match goal with |- written _ _ _ ?x => change x with (([] ++ []) ++ x) end. eapply written_app; [eapply written_app|].
    + apply P1. intros _ g (x & X1 & X2 & X3 & _). destruct (IJ _ _ X1 X3). congruence.
    + apply P2. intros _ e g _ NE K1 K2 _. destruct (IJ _ _ K1 K2). contradiction.
    + specialize (P3 i). rewrite TU, Nat.eqb_refl in P3. exact P3.
  - intros X1 X2 NE. change (@nil bytes) with ((@nil bytes ++ []) ++ []). eapply written_app; [eapply written_app|].
    + apply P1. intros _ g (e & K1 & K2 & K3 & _). apply (X1 e). exists g. split; auto. split; [eapply tr_listed; eauto|rewrite lookup_assoc; exact K1].
    + apply P2. intros _ e g I _ K1 K2 K3. apply (X2 e). exists g. rewrite lookup_assoc. auto.
    + specialize (P3 j). destruct (Nat.eqb_spec i j); [contradiction|]. rewrite andb_false_r in P3. exact P3.
Qed.
(** ---- KICK ---- *)
Lemma fmt_kick : forall x y z, fmt (B "KICK %s %s :%s") [FS x; FS y; FS z] = kick_text x y z.
Proof. intros x y z. change (B "KICK " ++ x ++ " "%char :: y ++ " "%char :: ":"%char :: z ++ [] = kick_text x y z). rewrite app_nil_r. reflexivity. Qed.
Definition mute (s s' : state) : Prop := s_out s' = s_out s.
Lemma drop_mute : forall ch s u s', (p <- Channel_HasMode ch "P" ;; (if p then ret tt else n <- Channel_MemberCount ch ;; whenM (n =? 0)%Z (Delete_Channel ch)) ;;; ret true) s = Ok u s' -> s_out s' = s_out s /\ s_members s' = s_members s.
Proof.
  intros ch s u s' H. bd H as p s1 H1. apply ChHasMode_ok in H1. destruct H1 as [-> _]. bd H as v s1 H1. apply ret_ok in H. destruct H as [_ ->]. destruct p; [apply ret_ok in H1; destruct H1 as [_ ->]; auto|].
  bd H1 as n s2 H2. unfold Channel_MemberCount in H2. rdgets H2. unfold whenM in H1. destruct (_ =? _)%Z in H1; [|apply ret_ok in H1; destruct H1 as [_ ->]; auto]. unfold Delete_Channel in H1. bd H1 as k s2 H2. apply chan_ok in H2. destruct H2 as [_ ->]. apply modify_ok in H1. subst s1. auto.
Qed.
Lemma is_on_del : forall s ch g y, keyed s -> (is_on (set_s_members (del_mb ch g (s_members s)) s) y ch <-> is_on s y ch /\ y <> g).
Proof.
  intros s ch g y K. unfold is_on. cbn [s_members set_s_members]. rewrite (del_mb_filter ch g _ (ky_members _ K)). unfold nofilter. split.
  - intros (m & I & E1 & E2). apply filter_In in I. destruct I as [I Q]. apply negb_true_iff in Q. split; [exists m; auto|]. intros ->. unfold is_mb, heq in Q. rewrite E1, E2, !Nat.eqb_refl in Q. discriminate Q.
  - intros [(m & I & E1 & E2) NE]. exists m. split; auto. apply filter_In. split; auto. apply negb_true_iff. unfold is_mb, heq. destruct ((mb_client m =? g)%nat) eqn:E; [apply Nat.eqb_eq in E; congruence|]. rewrite ?andb_false_r; reflexivity.
Qed.
Lemma kick_cast1 : forall ch g u h reason s b s' d e k, tree s -> keyed s -> NoDup (s_clients s) -> is_on s g ch -> assoc ch (s_chans s) = Some k -> assoc u (s_heap s) = Some d -> settled d -> fits d -> cl_id d <> [] ->
  next_hop s u h -> assoc g (s_heap s) = Some e -> cl_type e = T_USER -> Remove_Client REMOVE_KICK ch g u reason true s = Ok b s' ->
  ~ is_on s' g ch /\ forall j, is_open s j = true ->
  (forall y, hit s (Some h) None y j -> written s s' j (if Ascii.eqb (hd0 (ch_name k)) "&" then [] else [relayed d (kick_text (ch_name k) (id_of e) reason)])) /\
  (forall x y, is_on s y ch -> assoc y (s_heap s) = Some x -> cl_conn x = Some j -> cl_type x <> T_SERVER -> written s s' j [line_from s d x (kick_text (ch_name k) (id_of e) reason)]) /\
  ((forall y, ~ hit s (Some h) None y j) -> (forall x y, is_on s y ch -> assoc y (s_heap s) = Some x -> cl_conn x = Some j -> cl_type x <> T_SERVER -> False) -> written s s' j []).
Proof.
  intros ch g u h reason s b s' d e k T KY NC ON AK AU S F NI NX AG TG H. unfold Remove_Client in H. bd H as loc s1 H1. unfold Channel_IsLocal in H1. bd H1 as k1 s2 H2. apply chan_ok in H2. destruct H2 as [A1 ->]. rewrite AK in A1. injection A1 as <-. apply ret_ok in H1. destruct H1 as [-> ->].
  cbv zeta in H. set (loc := Ascii.eqb (hd0 (ch_name k)) "&") in *. cbn [andb] in H. bd H as m s1 H1. apply IsMemberOf_on in H1. destruct H1 as [-> MM]. destruct m; [|apply MM in ON; discriminate ON]. cbn [negb] in H. clear MM.
  bd H as nm s1 H1. unfold Channel_Name in H1. bd H1 as k1 s2 H2. apply chan_ok in H2. destruct H2 as [A1 ->]. rewrite AK in A1. injection A1 as <-. apply ret_ok in H1. destruct H1 as [-> ->].
  bd H as u0 sm H1. apply modify_ok in H1. subst sm. set (sm := set_s_members (del_mb ch g (s_members s)) s) in *. set (msg := kick_text (ch_name k) (id_of e) reason).
  assert (Tm : tree sm) by (destruct T; split; auto). assert (ONm : forall y, is_on sm y ch <-> is_on s y ch /\ y <> g) by (intro; apply is_on_del; auto).
  bd H as u1 s3 H1. apply drop_mute in H. destruct H as [O3 M3].
  bd H1 as u2 s4 H2. 
  assert (P1 : view sm s4 /\ forall j, (is_open s j = true -> forall y, hit s (Some h) None y j -> written s s4 j (if loc then [] else [relayed d msg])) /\ ((is_open s j = true -> forall y, ~ hit s (Some h) None y j) -> written s s4 j [])).
  { unfold whenM in H2. destruct loc; cbn [negb] in H2.
    - apply ret_ok in H2. destruct H2 as [_ ->]. split; [reflexivity|]. intro j. split; intros; apply written_nil; reflexivity.
    - bd H2 as nh s5 H5. apply Client_NextHop_next in H5. destruct H5 as [-> N5]. assert (NXm : next_hop sm u h) by (revert NX; apply view_next; reflexivity). rewrite (next_hop_fun _ _ _ N5 _ NXm) in H2.
      unfold IRC_WriteStrServersPrefix in H2. eapply cast in H2; [|exact Tm|exact NC|exact AU|apply prints_S; eapply prints_ID; [exact AG|apply prints_S, prints_nil]]. destruct H2 as (V2 & _ & G). split; auto. intro j. destruct (G j) as [G1 G2]. rewrite fmt_kick, (fits_type_id _ NI) in G1. split; [exact G1|exact G2]. }
  destruct P1 as [V4 P1]. clear H2. bd H1 as u3 s5 H2.
  eapply chan_local in H2; [|eapply view_tree; eauto|rewrite (view_keys _ _ V4); apply (ky_conns _ KY)|rewrite (v_heap _ _ V4); exact AU|exact S|exact F|exact NI|apply prints_S; eapply prints_ID; [rewrite (v_heap _ _ V4); exact AG|apply prints_S, prints_nil]].
  destruct H2 as [V5' P2]. assert (V5 : view sm s5) by (etransitivity; eauto). rewrite fmt_kick in P2. rewrite (v_heap _ _ V4) in P2.
  bd H1 as x s6 H2. apply cli_ok in H2. destruct H2 as [A2 ->]. rewrite (v_heap _ _ V5) in A2. change (s_heap sm) with (s_heap s) in A2. rewrite AG in A2. injection A2 as <-. rewrite TG in H1. change (ctype_eqb T_USER T_USER) with true in H1. rewrite andb_true_r in H1.
  assert (SM : forall st, view sm st -> shown_mask st d = shown_mask s d) by (intros st Vs; rewrite (view_shown _ _ _ Vs); reflexivity).
  assert (P3 : (forall j, cl_conn e = Some j -> is_open s j = true -> written s5 s3 j [line_from s d e msg]) /\ (forall j, cl_conn e <> Some j -> written s5 s3 j []) /\ view sm s3).
  { unfold whenM in H1. destruct (cl_conn e) as [j0|] eqn:CE.
    - bd H1 as b1 s6 H2. apply ret_ok in H1. destruct H1 as [_ <-]. eapply prefix_ok in H2; [|rewrite (v_heap _ _ V5); exact AU|exact S|exact F|exact NI|apply prints_S; eapply prints_ID; [rewrite (v_heap _ _ V5); exact AG|apply prints_S, prints_nil]].
      destruct H2 as (x & e1 & j1 & N1 & A1 & C1 & V6 & EB & OO). assert (N2 : next_hop s g x) by (revert N1; apply view_next; rewrite (v_heap _ _ V5); reflexivity). assert (x = g) by (exact (local_hop s g e j0 x T AG CE N2)). subst x. rewrite (v_heap _ _ V5) in A1. change (s_heap sm) with (s_heap s) in A1. rewrite AG in A1. injection A1 as <-. rewrite CE in C1. injection C1 as <-.
      rewrite (view_open _ _ _ V5) in EB. change (is_open sm j0) with (is_open s j0) in EB. rewrite fmt_kick in OO. unfold line_from in OO. rewrite (SM _ V5) in OO. split; [|split; [|etransitivity; eauto]].
      + intros j E OP. injection E as <-. rewrite OP in EB. subst b1. pose proof (written_one _ _ _ _ OO j0) as W. rewrite Nat.eqb_refl in W. exact W.
      + intros j NE. destruct b1; [|apply written_nil; exact OO]. pose proof (written_one _ _ _ _ OO j) as W. destruct (Nat.eqb_spec j0 j); [subst; congruence|exact W].
    - apply ret_ok in H1. destruct H1 as [_ ->]. split; [intros; discriminate|]. split; [intros; apply written_nil; reflexivity|exact V5]. }
  destruct P3 as (P3 & P4 & V6). split. { unfold is_on. rewrite M3, (v_members _ _ V6). intro X. apply (ONm g) in X. tauto. }
  intros j OP. specialize (P1 j). specialize (P2 j). rewrite (view_open _ _ _ V4) in P2. change (is_open sm j) with (is_open s j) in P2. change (s_heap sm) with (s_heap s) in P2.
  assert (K : forall l, written s s3 j l -> written s s' j l) by (intros l W; eapply written_to; eauto).
  assert (EE : forall x : list bytes, x = (x ++ []) ++ []) by (intro; rewrite !app_nil_r; reflexivity).
  assert (LF : forall x, line_from s4 d x msg = line_from s d x msg) by (intro; unfold line_from; rewrite (SM _ V4); reflexivity).
  split; [|split].
  - intros y HT. apply K. rewrite (EE (if loc then _ else _)). eapply written_app; [eapply written_app; [apply (proj1 P1 OP y HT)|]|].
    + apply P2. intros _ x z I1 I2 I3 I4 I5. destruct HT as (w & W1 & W2 & W3 & _). destruct (conn_client _ _ _ _ _ _ T W1 I3 W3 I4). congruence.
    + apply P4. intro X. destruct HT as (w & W1 & W2 & W3 & _). destruct (conn_client _ _ _ _ _ _ T W1 AG W3 X). congruence.
  - intros x y I A C NS. apply K. assert (N1 : written s s4 j []). { apply P1. intros _ z (w & W1 & W2 & W3 & _). destruct (conn_client _ _ _ _ _ _ T W1 A W3 C). congruence. }
    destruct (Nat.eq_dec y g) as [-> |NE].
    + rewrite AG in A. injection A as <-. change [line_from s d e msg] with (([] ++ []) ++ [line_from s d e msg]). eapply written_app; [eapply written_app; [exact N1|]|apply P3; auto]. apply P2. intros _ x z I1 I2 I3 I4 I5. apply (view_is_on _ _ _ _ V4) in I1. apply ONm in I1. destruct (conn_client _ _ _ _ _ _ T AG I3 C I4) as [<- _]. tauto.
    + change [line_from s d x msg] with (([] ++ [line_from s d x msg]) ++ []). eapply written_app; [eapply written_app; [exact N1|]|apply P4; intro X; destruct (conn_client _ _ _ _ _ _ T AG A X C) as [<- _]; auto].
      rewrite <- LF. apply (proj1 P2 OP x y); auto. apply (view_is_on _ _ _ _ V4). apply ONm. auto.
  - intros X1 X2. apply K. change (@nil bytes) with ((@nil bytes ++ []) ++ []). eapply written_app; [eapply written_app|].
    + apply P1. intros _ y. apply X1.
    + apply P2. intros _ x z I1 I2 I3 I4 I5. apply (view_is_on _ _ _ _ V4) in I1. apply ONm in I1. exact (X2 x z (proj1 I1) I3 I4 I5).
    + apply P4. intro X. apply (X2 e g); auto. congruence.
Qed.
Lemma split_one : forall c t, ~ In c t -> split_on c t = [t].
Proof. induction t as [|a t IH]; intro N; cbn [split_on]; auto. destruct (Ascii.eqb a c) eqn:E; [apply Ascii.eqb_eq in E; subst; destruct N; left; auto|]. rewrite IH; auto. intro I. apply N. right. exact I. Qed.
Lemma can_kick_yes : forall ch h j s b s' c, keyed s -> assoc h (s_heap s) = Some c -> can_kick ch h j h s = Ok b s' ->
   has_priv s h ch "q" \/
   (has_priv s h ch "a" /\ ~ has_priv s j ch "q") \/
   (has_priv s h ch "o" /\ ~ has_priv s j ch "q" /\ ~ has_priv s j ch "a") \/
   (has_priv s h ch "h" /\ ~ has_priv s j ch "q" /\ ~ has_priv s j ch "a" /\ ~ has_priv s j ch "o") \/
   (In "o"%char (cl_modes c) /\ cf_opercanmode (s_conf s) = true) -> s' = s /\ b = true.
Proof.
  intros ch h j s b s' c W A H P. unfold can_kick in H. bd H as ocm s1 H1. unfold cf in H1. rdgets H1.
  assert (U : forall g x s2 b2, Channel_UserHasMode ch g x s = Ok b2 s2 -> s2 = s /\ (b2 = true <-> has_priv s g ch x)) by (intros g x s2 b2 K; apply UserHasMode_key in K; tauto).
  assert (N : forall x s2 b2, notM (Channel_UserHasMode ch j x) s = Ok b2 s2 -> s2 = s /\ (b2 = true <-> ~ has_priv s j ch x)).
  { intros y s2 b2 K. apply notM_ok in K. apply U in K. destruct K as (-> & K). split; auto. apply negb_not. exact K. }
  apply orM_ok in H. destruct H as (x & s1 & H1 & H). apply U in H1; auto. destruct H1 as (-> & P1). destruct H as [(-> & -> & ->)|(-> & H)]; [split; auto|].
  apply orM_ok in H. destruct H as (x & s1 & H1 & H). apply andM_ok in H1. destruct H1 as (y & s2 & H2 & H1). apply U in H2; auto. destruct H2 as (-> & P2).
  assert (X : s1 = s /\ (has_priv s h ch "a" /\ ~ has_priv s j ch "q" -> x = true)).
  { destruct H1 as [(-> & -> & ->)|(-> & H1)]; [split; auto; intros [Q _]; apply P2 in Q; discriminate Q|]. apply N in H1. destruct H1 as [-> H1]. split; auto. intro E. apply H1; tauto. }
  destruct X as [-> X]. destruct H as [(-> & -> & ->)|(-> & H)]; [split; auto|]. clear H1 P2.
  apply orM_ok in H. destruct H as (x & s1 & H1 & H). apply andM_ok in H1. destruct H1 as (z & s2 & H2 & H1). apply U in H2; auto. destruct H2 as (-> & P2).
  assert (X2 : s1 = s /\ (has_priv s h ch "o" /\ ~ has_priv s j ch "q" /\ ~ has_priv s j ch "a" -> x = true)).
  { destruct H1 as [(-> & -> & ->)|(-> & H1)]; [split; auto; intros [Q _]; apply P2 in Q; discriminate Q|]. apply andM_ok in H1. destruct H1 as (w & s2 & H2 & H1). apply N in H2. destruct H2 as [-> H2]. destruct H1 as [(-> & -> & ->)|(-> & H1)]; [split; auto; intros (_ & Q & _); apply H2 in Q; discriminate Q|].
    apply N in H1. destruct H1 as [-> H1]. split; auto. intro E. apply H1; tauto. }
  destruct X2 as [-> X2]. destruct H as [(-> & -> & ->)|(-> & H)]; [split; auto|]. clear H1 P2.
  apply orM_ok in H. destruct H as (x & s1 & H1 & H). apply andM_ok in H1. destruct H1 as (v & s2 & H2 & H1). apply U in H2; auto. destruct H2 as (-> & P2).
  assert (X3 : s1 = s /\ (has_priv s h ch "h" /\ ~ has_priv s j ch "q" /\ ~ has_priv s j ch "a" /\ ~ has_priv s j ch "o" -> x = true)).
  { destruct H1 as [(-> & -> & ->)|(-> & H1)]; [split; auto; intros [Q _]; apply P2 in Q; discriminate Q|]. apply andM_ok in H1. destruct H1 as (w & s2 & H2 & H1). apply N in H2. destruct H2 as [-> H2]. destruct H1 as [(-> & -> & ->)|(-> & H1)]; [split; auto; intros (_ & Q & _); apply H2 in Q; discriminate Q|].
    apply andM_ok in H1. destruct H1 as (w & s2 & H3 & H1). apply N in H3. destruct H3 as [-> H3]. destruct H1 as [(-> & -> & ->)|(-> & H1)]; [split; auto; intros (_ & _ & Q & _); apply H3 in Q; discriminate Q|].
    apply N in H1. destruct H1 as [-> H1]. split; auto. intro E. apply H1; tauto. }
  destruct X3 as [-> X3]. destruct H as [(-> & -> & ->)|(-> & H)]; [split; auto|]. clear H1 P2.
  apply andM_ok in H. destruct H as (x & s1 & H1 & H). apply HasMode_ok in H1. destruct H1 as (-> & c1 & A1 & E). rewrite A in A1. injection A1 as <-.
  assert (Q : In "o"%char (cl_modes c) /\ cf_opercanmode (s_conf s) = true). { destruct P as [P|[P|[P|[P|P]]]]; [apply P1 in P; discriminate P|apply X in P; discriminate P|apply X2 in P; discriminate P|apply X3 in P; discriminate P|exact P]. }
  destruct Q as [Q1 Q2]. destruct H as [(-> & -> & ->)|(-> & H)]; [rewrite <- (strchr0_iff "o" (cl_modes c)) in Q1 by discriminate; congruence|]. apply ret_ok in H. destruct H as [-> ->]. auto.
Qed.
Lemma acts_req : forall s s1 c req (h u : handle) d, view s s1 -> (cl_type c = T_USER /\ rq_prefix req = None /\ u = h /\ d = c \/ cl_type c = T_SERVER /\ exists p, rq_prefix req = Some p /\ the_client s p u d /\ forall o s2, Client_Search p s1 = Ok o s2 -> s2 = s1 /\ o = Some u) ->
  cl_type c = T_USER /\ rq_prefix req = None /\ u = h /\ d = c \/ cl_type c = T_SERVER /\ exists p, rq_prefix req = Some p /\ the_client s1 p u d /\ forall o s2, Client_Search p s1 = Ok o s2 -> s2 = s1 /\ o = Some u.
Proof. intros s s1 c req h u d V [Q|(Q1 & p & Q2 & Q3 & Q4)]; [left; exact Q|right]. split; auto. exists p. split; auto. split; auto. eapply view_the; eauto. Qed.
Lemma view_priv : forall s s1 h ch x, view s s1 -> (has_priv s1 h ch x <-> has_priv s h ch x).
Proof. intros s s1 h ch x V. unfold has_priv. rewrite (v_members _ _ V). reflexivity. Qed.
Lemma icli_view : forall s s1, view s s1 -> icli s -> icli s1.
Proof. intros s s1 V I x cx A. rewrite (v_heap _ _ V) in A. exact (I _ _ A). Qed.
Lemma kick_runs : forall peer g u name reason s c d e k ch r s', keyed s -> assoc peer (s_heap s) = Some c -> assoc u (s_heap s) = Some d -> assoc g (s_heap s) = Some e -> assoc ch (s_chans s) = Some k ->
  cl_type d = T_USER -> is_on s g ch -> (forall o s2, Channel_Search name s = Ok o s2 -> s2 = s /\ o = Some ch) ->
  (cl_type c = T_USER /\ u = peer /\ d = c /\ may_kick s u d ch k g e \/ cl_type c = T_SERVER) -> Channel_Kick peer g u name reason s = Ok r s' ->
  exists b, Remove_Client REMOVE_KICK ch g u reason true s = Ok b s'.
Proof.
  intros peer g u name reason s c d e k ch r s' KY AP AU AG AK TD ON SE CS H. unfold Channel_Kick in H. bd H as o s1 H1. destruct (SE _ _ H1) as [-> ->]. clear H1.
  bd H as pt s1 H1. apply Client_Type_ok in H1. destruct H1 as (-> & c1 & A1 & ->). rewrite AP in A1. injection A1 as <-. bd H as ot s1 H1. apply Client_Type_ok in H1. destruct H1 as (-> & d1 & A1 & ->). rewrite AU in A1. injection A1 as <-.
  rewrite TD in H. change (ctype_eqb T_USER T_SERVICE) with false in H. cbn [negb] in H. rewrite andb_true_r in H. bd H as notin s1 H1.
  assert (X : s1 = s /\ notin = false). { destruct CS as [(T & _ & _ & M & _)|T]; rewrite T in H1; cbn [ctype_eqb negb] in H1; [|apply ret_ok in H1; destruct H1; auto]. apply notM_ok in H1. apply IsMemberOf_on in H1. destruct H1 as [-> MM]. split; auto. apply MM in M. destruct notin; auto. }
  destruct X as [-> ->]. clear H1. bd H as m s1 H1. apply IsMemberOf_on in H1. destruct H1 as [-> MM]. apply MM in ON. subst m. cbn [negb] in H. clear MM.
  destruct CS as [(T & -> & -> & MK)|T]; rewrite T in H; cbn [ctype_eqb] in H.
  2: { bd H as b s1 H1. apply ret_ok in H. destruct H as [_ ->]. eauto. }
  destruct MK as (_ & PR & MK). bd H as prot s1 H1.
  assert (P : s1 = s /\ prot = false).
  { apply andM_ok in H1. destruct H1 as (x & s2 & H2 & H1). apply orM_ok in H2. destruct H2 as (y & s3 & H3 & H2). apply ChHasMode_ok in H3. destruct H3 as (-> & k1 & AK1 & E1). rewrite AK in AK1. injection AK1 as <-.
    assert (Y : s2 = s /\ (x = true -> In "Q"%char (ch_modes k) \/ In "q"%char (cl_modes e) \/ cl_type e = T_SERVICE)).
    { destruct H2 as [(-> & -> & ->)|(-> & H2)]; [split; auto; intros _; left; apply strchr0_In; [auto|discriminate]|]. apply orM_ok in H2. destruct H2 as (z & s3 & H3 & H2). apply HasMode_ok in H3. destruct H3 as (-> & d1 & AD1 & E2). rewrite AG in AD1. injection AD1 as <-.
      destruct H2 as [(-> & -> & ->)|(-> & H2)]; [split; auto; intros _; right; left; apply strchr0_In; [auto|discriminate]|]. apply is_type_ok in H2. destruct H2 as (-> & d1 & AD1 & ->). rewrite AG in AD1. injection AD1 as <-. split; auto. intro E. apply ctype_eqb_eq in E. auto. }
    destruct Y as [-> Y]. destruct H1 as [(-> & -> & ->)|(-> & H1)]; [auto|]. apply notM_ok in H1. apply HasMode_ok in H1. destruct H1 as (-> & c1 & A1 & E2). rewrite AU in A1. injection A1 as <-. split; auto.
    specialize (PR (Y eq_refl)). rewrite <- (strchr0_iff "o" (cl_modes c)) in PR by discriminate. destruct prot; auto. cbn [negb] in E2. congruence. }
  destruct P as [-> ->]. clear H1. bd H as ok s1 H1. destruct (can_kick_yes _ _ _ _ _ _ _ KY AP H1 MK) as [-> ->]. clear H1. cbn [negb] in H. bd H as b s1 H1. apply ret_ok in H. destruct H as [_ ->]. eauto.
Qed.
Theorem kick_cast : forall s i h c text name nick t u d g e ch k b s', live s -> undisturbed s -> client_of s i h c -> acts s h c text "KICK" [name; nick; t] u d -> nick_fits d -> settled d ->
  ~ In ","%char name -> ~ In ","%char nick -> the_channel s name ch k -> the_client s nick g e -> nick_fits e -> cl_type e = T_USER -> is_on s g ch ->
  (cl_type c = T_USER -> may_kick s u d ch k g e) -> Parse_Request i text s = Ok b s' ->
  ~ is_on s' g ch /\ forall j, is_open s j = true ->
  (forall x, link s j x -> written s s' j (if (i =? j)%nat || Ascii.eqb (hd0 (ch_name k)) "&" then [] else [relayed d (kick_text (ch_name k) (cl_id e) t)])) /\
  (forall x, local_on s j ch x -> written s s' j [line_from s d x (kick_text (ch_name k) (cl_id e) t)]) /\
  ((forall x, ~ link s j x) -> (forall x, ~ local_on s j ch x) -> written s s' j []).
Proof.
  intros s i h c text name nick t u d g e ch k b s' L U C AC NF S NC1 NC2 TC TG NG TE ON MK H. destruct (actor _ _ _ _ _ _ _ _ _ L U C AC NF) as (T & KY & NC & AH & CI & AU & TD & F & NU & NX).
  assert (TY : cl_type c = T_USER \/ cl_type c = T_SERVER) by (destruct AC as [(X & _)|(X & _)]; auto).
  eapply run_as in H; [|exact L|exact C|exact AC|exact NF|reflexivity|destruct TY as [-> | ->]; reflexivity|cbn; lia|intros m E; cbn in E; first [discriminate E|injection E as <-; cbn; lia]].
  destruct H as (req & s1 & V & O1 & SN & EA & H & Q). change (IRC_KICK h req s1 = Ok b s') in H. pose proof (acts_req _ _ _ _ _ _ _ V Q) as Q1.
  assert (AH1 : assoc h (s_heap s1) = Some c) by (rewrite (v_heap _ _ V); exact AH). assert (AU1 : assoc u (s_heap s1) = Some d) by (rewrite (v_heap _ _ V); exact AU).
  unfold IRC_KICK in H. eapply sender_as in H; [|exact AH1|exact Q1]. cbv beta zeta in H. unfold arg, argc in H. rewrite EA in H. cbn [nth List.length Nat.eqb] in H. rewrite (split_one _ _ NC1), (split_one _ _ NC2) in H.
  bd H as id s2 H1. apply Client_ID_ok in H1. destruct H1 as (-> & _). cbn [mall] in H.
  assert (HK : exists r, try_kick h u nick name t s1 = Ok r s'). { apply and_then_ok in H. destruct H as (x & s2 & H1 & H). exists x. destruct H as [[-> H]|[-> [E1 E2]]]; [|subst; exact H1]. apply ret_ok in H. destruct H as [_ ->]. exact H1. }
  clear H. destruct HK as [r H]. unfold try_kick in H. bd H as o s2 H1. destruct (search_the _ _ _ _ _ _ (icli_view _ _ V (live_icli _ L)) (view_the _ _ _ _ _ V TG) (proj1 NG) H1) as [-> ->]. clear H1. bd H as r1 s2 H1. apply ret_ok in H. destruct H as [_ E2]. subst s2.
  assert (AG : assoc g (s_heap s) = Some e) by (destruct TG as [[_ K] _]; rewrite lookup_assoc in K; exact K). assert (AK : assoc ch (s_chans s) = Some k) by (destruct TC as [E _]; unfold exists_chan in E; rewrite lookup_assoc in E; exact E).
  assert (AG1 : assoc g (s_heap s1) = Some e) by (rewrite (v_heap _ _ V); exact AG). assert (AK1 : assoc ch (s_chans s1) = Some k) by (rewrite (v_chans _ _ V); exact AK). pose proof (view_keyed _ _ V KY) as KY1. pose proof (view_tree _ _ V T) as T1.
  assert (ON1 : is_on s1 g ch) by (apply (view_is_on _ _ _ _ V); exact ON).
  eapply (kick_runs h g u) in H1; [|exact KY1|exact AH1|exact AU1|exact AG1|exact AK1|exact TD|exact ON1|intros o s3 HH; eapply search_view; eauto|].
  2: { destruct TY as [TU|TS]; [left|right; exact TS]. split; auto. destruct Q as [(_ & _ & -> & ->)|(X & _)]; [|congruence]. split; auto. split; auto. destruct (MK TU) as (M1 & M2 & M3). split; [apply (view_is_on _ _ _ _ V); exact M1|]. split; auto. rewrite (v_conf _ _ V), !(view_priv _ _ _ _ _ V). exact M3. }
  destruct H1 as [b1 H1]. assert (NX1 : next_hop s1 u h) by (revert NX; apply view_next; rewrite (v_heap _ _ V); reflexivity).
  destruct (kick_cast1 _ _ _ _ _ _ _ _ _ _ _ T1 KY1 ltac:(rewrite (v_clients _ _ V); exact NC) ON1 AK1 AU1 S F (proj1 NF) NX1 AG1 TE H1) as [R1 R2]. split; auto. intros j OP. specialize (R2 j). rewrite (view_open _ _ _ V) in R2. destruct (R2 OP) as (R3 & R4 & R5). clear R2. rewrite (fits_type_id _ (proj1 NG)) in R3, R4.
  assert (K : forall l, written s1 s' j l -> written s s' j l) by (intros l W; change l with ([] ++ l); eapply written_app; [apply written_nil; exact O1|exact W]).
  assert (LF : forall x m, line_from s1 d x m = line_from s d x m) by (intros; unfold line_from; rewrite (view_shown _ _ _ V); reflexivity).
  assert (IJ : forall x y, assoc y (s_heap s) = Some x -> cl_conn x = Some i -> y = h /\ x = c) by (intros x y K1 K2; destruct (conn_client _ _ _ _ _ _ T K1 AH K2 CI); auto).
  assert (HI : forall y, hit s1 (Some h) None y j <-> hit s (Some h) None y j) by (intro; apply view_hit; exact V).
  split; [|split].
  - intros x (y & [_ K1] & K2 & K3). rewrite lookup_assoc in K1. destruct (Nat.eqb_spec i j) as [<- |NE]; cbn [orb].
    + destruct (IJ _ _ K1 K3) as [-> ->]. apply K, R5; [intros z Z; apply HI in Z; destruct Z as (w & W1 & _ & W3 & W4 & _); destruct (IJ _ _ W1 W3) as [-> _]; auto|].
      intros z w W1 W2 W3 W4. rewrite (v_heap _ _ V) in W2. destruct (IJ _ _ W2 W3) as [_ ->]. congruence.
    + apply K, (R3 y), HI. exists x. split; auto. split; auto. split; auto. split; auto. intro X. injection X as <-. rewrite AH in K1. injection K1 as <-. congruence.
  - intros x (y & I & K1 & K2 & K3). rewrite lookup_assoc in K1. apply K. rewrite <- LF. apply (R4 x y); auto; [apply (view_is_on _ _ _ _ V); exact I|rewrite (v_heap _ _ V); exact K1].
  - intros X1 X2. apply K, R5.
    + intros y HY. apply HI in HY. destruct HY as (x & K1 & K2 & K3 & _). apply (X1 x). exists y. split; auto. split; [eapply tr_listed; eauto|rewrite lookup_assoc; exact K1].
    + intros x y I K1 K2 K3. rewrite (v_heap _ _ V) in K1. apply (X2 x). exists y. rewrite lookup_assoc. split; [apply (view_is_on _ _ _ _ V); exact I|auto].
Qed.
(** ---- PART ---- *)
Lemma fmt_part : forall x z, fmt (B "PART %s :%s") [FS x; FS z] = part_text x z.
Proof. intros x z. change (B "PART " ++ x ++ " "%char :: ":"%char :: z ++ [] = part_text x z). rewrite app_nil_r. reflexivity. Qed.
Lemma part_cast1 : forall ch u h reason s b s' c d k, tree s -> keyed s -> NoDup (s_clients s) -> is_on s u ch -> assoc ch (s_chans s) = Some k -> assoc u (s_heap s) = Some d -> settled d -> fits d -> cl_id d <> [] ->
  assoc h (s_heap s) = Some c -> (cl_type c = T_USER /\ u = h /\ cl_conn c <> None \/ cl_type c = T_SERVER /\ cl_conn d = None) -> Remove_Client REMOVE_PART ch u h reason true s = Ok b s' ->
  let reason := if cf_moreprivacy (s_conf s) then [] else reason in
  ~ is_on s' u ch /\ forall j, is_open s j = true ->
  (forall y, hit s (Some h) None y j -> written s s' j (if Ascii.eqb (hd0 (ch_name k)) "&" then [] else [relayed d (part_text (ch_name k) reason)])) /\
  (forall x y, is_on s y ch -> assoc y (s_heap s) = Some x -> cl_conn x = Some j -> cl_type x <> T_SERVER -> written s s' j [line_from s d x (part_text (ch_name k) reason)]) /\
  ((forall y, ~ hit s (Some h) None y j) -> (forall x y, is_on s y ch -> assoc y (s_heap s) = Some x -> cl_conn x = Some j -> cl_type x <> T_SERVER -> False) -> written s s' j []).
Proof.
  intros ch u h reason0 s b s' c d k T KY NC ON AK AU S F NI AH CS H reason. unfold Remove_Client in H. bd H as loc s1 H1. unfold Channel_IsLocal in H1. bd H1 as k1 s2 H2. apply chan_ok in H2. destruct H2 as [A1 ->]. rewrite AK in A1. injection A1 as <-. apply ret_ok in H1. destruct H1 as [-> ->].
  cbv zeta in H. set (loc := Ascii.eqb (hd0 (ch_name k)) "&") in *. cbn [andb] in H. bd H as m s1 H1. apply IsMemberOf_on in H1. destruct H1 as [-> MM]. destruct m; [|apply MM in ON; discriminate ON]. cbn [negb] in H. clear MM.
  bd H as nm s1 H1. unfold Channel_Name in H1. bd H1 as k1 s2 H2. apply chan_ok in H2. destruct H2 as [A1 ->]. rewrite AK in A1. injection A1 as <-. apply ret_ok in H1. destruct H1 as [-> ->].
  bd H as u0 sm H1. apply modify_ok in H1. subst sm. set (sm := set_s_members (del_mb ch u (s_members s)) s) in *. set (msg := part_text (ch_name k) reason).
  assert (Tm : tree sm) by (destruct T; split; auto). assert (ONm : forall y, is_on sm y ch <-> is_on s y ch /\ y <> u) by (intro; apply is_on_del; auto).
  bd H as u1 s3 H1. apply drop_mute in H. destruct H as [O3 M3]. bd H1 as mp s4 H2. unfold cf in H2. rdgets H2. change (cf_moreprivacy (s_conf sm)) with (cf_moreprivacy (s_conf s)) in H1. fold reason in H1.
  bd H1 as u2 s4 H2. 
  assert (P1 : view sm s4 /\ forall j, (is_open s j = true -> forall y, hit s (Some h) None y j -> written s s4 j (if loc then [] else [relayed d msg])) /\ ((is_open s j = true -> forall y, ~ hit s (Some h) None y j) -> written s s4 j [])).
  { unfold whenM in H2. destruct loc; cbn [negb] in H2.
    - apply ret_ok in H2. destruct H2 as [_ ->]. split; [reflexivity|]. intro j. split; intros; apply written_nil; reflexivity.
    - unfold IRC_WriteStrServersPrefix in H2. eapply cast in H2; [|exact Tm|exact NC|exact AU|apply prints_S, prints_S, prints_nil]. destruct H2 as (V2 & _ & G). split; auto. intro j. destruct (G j) as [G1 G2]. rewrite fmt_part, (fits_type_id _ NI) in G1. split; [exact G1|exact G2]. }
  destruct P1 as [V4 P1]. clear H2. bd H1 as u3 s5 H2.
  eapply chan_local in H2; [|eapply view_tree; eauto|rewrite (view_keys _ _ V4); apply (ky_conns _ KY)|rewrite (v_heap _ _ V4); exact AU|exact S|exact F|exact NI|apply prints_S, prints_S, prints_nil].
  destruct H2 as [V5' P2]. assert (V5 : view sm s5) by (etransitivity; eauto). rewrite fmt_part in P2. rewrite (v_heap _ _ V4) in P2.
  bd H1 as x s6 H2. apply cli_ok in H2. destruct H2 as [A2 ->]. rewrite (v_heap _ _ V5) in A2. change (s_heap sm) with (s_heap s) in A2. rewrite AH in A2. injection A2 as <-.
  assert (SM : forall st, view sm st -> shown_mask st d = shown_mask s d) by (intros st Vs; rewrite (view_shown _ _ _ Vs); reflexivity).
  assert (P3 : (forall j, cl_type c = T_USER -> cl_conn c = Some j -> is_open s j = true -> written s5 s3 j [line_from s d c msg]) /\ (forall j, (cl_type c = T_USER -> cl_conn c <> Some j) -> written s5 s3 j []) /\ view sm s3).
  { unfold whenM in H1. destruct CS as [(TU & -> & CN)|(TS & _)].
    - rewrite AH in AU. injection AU as <-. rewrite TU in H1. change (ctype_eqb T_USER T_USER) with true in H1. rewrite andb_true_r in H1. destruct (cl_conn c) as [j0|] eqn:CE; [|congruence].
      bd H1 as b1 s6 H2. apply ret_ok in H1. destruct H1 as [_ <-]. eapply prefix_ok in H2; [|rewrite (v_heap _ _ V5); exact AH|exact S|exact F|exact NI|apply prints_S, prints_S, prints_nil].
      destruct H2 as (x & e1 & j1 & N1 & A1 & C1 & V6 & EB & OO). assert (N2 : next_hop s h x) by (revert N1; apply view_next; rewrite (v_heap _ _ V5); reflexivity). assert (x = h) by (exact (local_hop s h c j0 x T AH CE N2)). subst x. rewrite (v_heap _ _ V5) in A1. change (s_heap sm) with (s_heap s) in A1. rewrite AH in A1. injection A1 as <-. rewrite CE in C1. injection C1 as <-.
      rewrite (view_open _ _ _ V5) in EB. change (is_open sm j0) with (is_open s j0) in EB. rewrite fmt_part in OO. unfold line_from in OO. rewrite (SM _ V5) in OO. split; [|split; [|etransitivity; eauto]].
      + intros j _ E OP. injection E as <-. rewrite OP in EB. subst b1. pose proof (written_one _ _ _ _ OO j0) as W. rewrite Nat.eqb_refl in W. exact W.
      + intros j NE. destruct b1; [|apply written_nil; exact OO]. pose proof (written_one _ _ _ _ OO j) as W. destruct (Nat.eqb_spec j0 j); [subst; exfalso; apply NE; auto|exact W].
    - rewrite TS in H1. change (ctype_eqb T_SERVER T_USER) with false in H1. rewrite andb_false_r in H1. apply ret_ok in H1. destruct H1 as [_ ->]. split; [intros; congruence|]. split; [intros; apply written_nil; reflexivity|exact V5]. }
  destruct P3 as (P3 & P4 & V6). split. { unfold is_on. rewrite M3, (v_members _ _ V6). intro X. apply (ONm u) in X. tauto. }
  intros j OP. specialize (P1 j). specialize (P2 j). rewrite (view_open _ _ _ V4) in P2. change (is_open sm j) with (is_open s j) in P2. change (s_heap sm) with (s_heap s) in P2.
  assert (K : forall l, written s s3 j l -> written s s' j l) by (intros l W; eapply written_to; eauto).
  assert (EE : forall x : list bytes, x = (x ++ []) ++ []) by (intro; rewrite !app_nil_r; reflexivity).
  assert (LF : forall x, line_from s4 d x msg = line_from s d x msg) by (intro; unfold line_from; rewrite (SM _ V4); reflexivity).
  split; [|split].
  - intros y HT. apply K. rewrite (EE (if loc then _ else _)). eapply written_app; [eapply written_app; [apply (proj1 P1 OP y HT)|]|].
    + apply P2. intros _ x z I1 I2 I3 I4 I5. destruct HT as (w & W1 & W2 & W3 & _). destruct (conn_client _ _ _ _ _ _ T W1 I3 W3 I4). congruence.
    + apply P4. intros TU X. destruct HT as (w & W1 & W2 & W3 & _). destruct (conn_client _ _ _ _ _ _ T W1 AH W3 X). congruence.
  - intros x y I A C NS. apply K. assert (N1 : written s s4 j []). { apply P1. intros _ z (w & W1 & W2 & W3 & _). destruct (conn_client _ _ _ _ _ _ T W1 A W3 C). congruence. }
    destruct (Nat.eq_dec y u) as [-> |NE].
    + rewrite AU in A. injection A as <-. destruct CS as [(TU & EU & CN)|(TS & CN)]; [|congruence]. subst u. rewrite AH in AU. injection AU as <-. change [line_from s c c msg] with (([] ++ []) ++ [line_from s c c msg]). eapply written_app; [eapply written_app; [exact N1|]|apply P3; auto]. apply P2. intros _ x z I1 I2 I3 I4 I5. destruct (conn_client _ _ _ _ _ _ T AH I3 C I4) as [<- _]. tauto.
    + change [line_from s d x msg] with (([] ++ [line_from s d x msg]) ++ []). eapply written_app; [eapply written_app; [exact N1|]|].
      * rewrite <- LF. apply (proj1 P2 OP x y); auto; [apply (view_is_on _ _ _ _ V4); apply ONm; auto|]. destruct CS as [(TU & EU & CN)|(TS & CN)]; [congruence|]. intros ->. rewrite AH in A. injection A as <-. congruence.
      * apply P4. intros TU X. destruct (conn_client _ _ _ _ _ _ T AH A X C) as [<- _]. destruct CS as [(_ & EU & CN)|(TS & CN)]; congruence.
  - intros X1 X2. apply K. change (@nil bytes) with ((@nil bytes ++ []) ++ []). eapply written_app; [eapply written_app|].
    + apply P1. intros _ y. apply X1.
    + apply P2. intros _ x z I1 I2 I3 I4 I5. apply (view_is_on _ _ _ _ V4) in I1. apply ONm in I1. exact (X2 x z (proj1 I1) I3 I4 I5).
    + apply P4. intros TU X. destruct CS as [(_ & EU & CN)|(TS & CN)]; [|congruence]. subst u. apply (X2 c h); auto. congruence.
Qed.
Theorem part_cast : forall s i h c text name args t u d ch k b s', live s -> undisturbed s -> client_of s i h c -> acts s h c text "PART" args u d -> args = [name; t] \/ args = [name] /\ t = [] -> nick_fits d -> settled d ->
  name <> [] -> ~ In ","%char name -> the_channel s name ch k -> is_on s u ch -> Parse_Request i text s = Ok b s' ->
  let reason := if cf_moreprivacy (s_conf s) then [] else t in
  ~ is_on s' u ch /\ forall j, is_open s j = true ->
  (forall x, link s j x -> written s s' j (if (i =? j)%nat || Ascii.eqb (hd0 (ch_name k)) "&" then [] else [relayed d (part_text (ch_name k) reason)])) /\
  (forall x, local_on s j ch x -> written s s' j [line_from s d x (part_text (ch_name k) reason)]) /\
  ((forall x, ~ link s j x) -> (forall x, ~ local_on s j ch x) -> written s s' j []).
Proof.
  intros s i h c text name args t u d ch k b s' L U C AC EA0 NF S NE0 NC1 TC ON H reason. destruct (actor _ _ _ _ _ _ _ _ _ L U C AC NF) as (T & KY & NC & AH & CI & AU & TD & F & NU & NX).
  assert (TY : cl_type c = T_USER \/ cl_type c = T_SERVER) by (destruct AC as [(X & _)|(X & _)]; auto).
  eapply run_as in H; [|exact L|exact C|exact AC|exact NF|reflexivity|destruct TY as [-> | ->]; reflexivity|destruct EA0 as [-> |[-> _]]; cbn; lia|intros m E; cbn in E; first [discriminate E|injection E as <-; destruct EA0 as [-> |[-> _]]; cbn; lia]].
  destruct H as (req & s1 & V & O1 & SN & EA & H & Q). change (IRC_PART h req s1 = Ok b s') in H. pose proof (acts_req _ _ _ _ _ _ _ V Q) as Q1.
  assert (AH1 : assoc h (s_heap s1) = Some c) by (rewrite (v_heap _ _ V); exact AH). assert (AU1 : assoc u (s_heap s1) = Some d) by (rewrite (v_heap _ _ V); exact AU).
  unfold IRC_PART in H. eapply sender_as in H; [|exact AH1|exact Q1]. cbv beta zeta in H. assert (A0 : arg req 0 = name /\ arg req 1 = t) by (unfold arg; rewrite EA; destruct EA0 as [-> |[-> ->]]; auto). destruct A0 as [A0 A1]. rewrite A0, A1 in H. rewrite (strtok_one _ _ NC1 NE0) in H.
  bd H as v s2 H1. cbn [mfor] in H1. bd H1 as v1 s3 H2. apply ret_ok in H1. destruct H1 as [_ E3]. subst s3. unfold void in H2. bd H2 as v2 s3 H3. apply ret_ok in H2. destruct H2 as [_ E3]. subst s3.
  assert (O2 : s_out s' = s_out s2 /\ s_members s' = s_members s2). { bd H as o s3 H4. apply Client_Conn_ok in H4. destruct H4 as (-> & _). bd H as v3 s4 H4. apply ret_ok in H. destruct H as [_ ->]. destruct o as [x|]; cbn [opt] in H4; [|apply ret_ok in H4; destruct H4 as [_ ->]; auto]. unfold Conn_UpdateIdle in H4. bd H4 as n s5 H5. unfold now in H5. rdgets H5. apply upd_con_ok in H4. rewrite H4. auto. }
  clear H. destruct O2 as [O2 M2]. unfold Channel_Part in H3. bd H3 as o s3 H4. destruct (search_view _ _ _ _ _ _ _ L V TC H4) as [-> ->]. clear H4.
  assert (AK : assoc ch (s_chans s) = Some k) by (destruct TC as [E _]; unfold exists_chan in E; rewrite lookup_assoc in E; exact E).
  assert (AK1 : assoc ch (s_chans s1) = Some k) by (rewrite (v_chans _ _ V); exact AK). pose proof (view_keyed _ _ V KY) as KY1. pose proof (view_tree _ _ V T) as T1.
  assert (ON1 : is_on s1 u ch) by (apply (view_is_on _ _ _ _ V); exact ON). bd H3 as m s3 H4. apply IsMemberOf_on in H4. destruct H4 as [-> MM]. destruct m; [|apply MM in ON1; discriminate ON1]. cbn [negb] in H3. bd H3 as mp s3 H4. unfold cf in H4. rdgets H4.
  assert (CS : cl_type c = T_USER /\ u = h /\ cl_conn c <> None \/ cl_type c = T_SERVER /\ cl_conn d = None). { destruct Q as [(X1 & X2 & X3 & X4)|(X1 & _)]; [left; split; auto; split; auto; congruence|right]. split; auto. destruct (cl_conn d) as [jd|] eqn:CD; auto. assert (h = u) by (exact (local_hop s u d jd h T AU CD NX)). subst. rewrite AH in AU. injection AU as <-. congruence. }
  destruct (part_cast1 _ _ _ _ _ _ _ _ _ _ T1 KY1 ltac:(rewrite (v_clients _ _ V); exact NC) ON1 AK1 AU1 S F (proj1 NF) AH1 CS H3) as (R1 & R2). cbv zeta in R2. rewrite (v_conf _ _ V) in R2. assert (MP : exists mp, cf_moreprivacy (s_conf s) = mp) by eauto. destruct MP as [mp MP]. unfold reason. clear reason. rewrite MP in R2 |- *. assert (ER : exists rr, (if mp then [] else t) = rr) by eauto. destruct ER as [reason ER]. rewrite ER. match type of R2 with context [part_text (ch_name k) ?r] => assert (E2 : r = reason) by (destruct mp; auto); rewrite E2 in R2 end.
  split. { unfold is_on in *. rewrite M2. exact R1. } intros j OP. specialize (R2 j). rewrite (view_open _ _ _ V) in R2. destruct (R2 OP) as (R3 & R4 & R5). clear R2.
  assert (K : forall l, written s1 s2 j l -> written s s' j l) by (intros l W; change l with ([] ++ l); eapply written_app; [apply written_nil; exact O1|]; eapply written_to; [exact W|exact O2]).
  assert (LF : forall x m, line_from s1 d x m = line_from s d x m) by (intros; unfold line_from; rewrite (view_shown _ _ _ V); reflexivity).
  assert (IJ : forall x y, assoc y (s_heap s) = Some x -> cl_conn x = Some i -> y = h /\ x = c) by (intros x y K1 K2; destruct (conn_client _ _ _ _ _ _ T K1 AH K2 CI); auto).
  assert (HI : forall y, hit s1 (Some h) None y j <-> hit s (Some h) None y j) by (intro; apply view_hit; exact V).
  split; [|split].
  - intros x (y & [_ K1] & K2 & K3). rewrite lookup_assoc in K1. destruct (Nat.eqb_spec i j) as [<- |NE]; cbn [orb].
    + destruct (IJ _ _ K1 K3) as [-> ->]. apply K, R5; [intros z Z; apply HI in Z; destruct Z as (w & W1 & _ & W3 & W4 & _); destruct (IJ _ _ W1 W3) as [-> _]; auto|].
      intros z w W1 W2 W3 W4. rewrite (v_heap _ _ V) in W2. destruct (IJ _ _ W2 W3) as [_ ->]. congruence.
    + apply K, (R3 y), HI. exists x. split; auto. split; auto. split; auto. split; auto. intro X. injection X as <-. rewrite AH in K1. injection K1 as <-. congruence.
  - intros x (y & I & K1 & K2 & K3). rewrite lookup_assoc in K1. apply K. rewrite <- LF. apply (R4 x y); auto; [apply (view_is_on _ _ _ _ V); exact I|rewrite (v_heap _ _ V); exact K1].
  - intros X1 X2. apply K, R5.
    + intros y HY. apply HI in HY. destruct HY as (x & K1 & K2 & K3 & _). apply (X1 x). exists y. split; auto. split; [eapply tr_listed; eauto|rewrite lookup_assoc; exact K1].
    + intros x y I K1 K2 K3. rewrite (v_heap _ _ V) in K1. apply (X2 x). exists y. rewrite lookup_assoc. split; [apply (view_is_on _ _ _ _ V); exact I|auto].
Qed.
(** ---- for the property theorems ---- *)
Lemma local_hd : forall n, local_name n <-> Ascii.eqb (hd0 n) "&" = true.
Proof. intros [|a n]; cbn; [split; [intros [r E]; discriminate E|discriminate]|]. rewrite Ascii.eqb_eq. split; [intros [r E]; congruence|intros ->; exists n; reflexivity]. Qed.
Lemma nonlocal_hd : forall n, ~ local_name n -> Ascii.eqb (hd0 n) "&" = false.
Proof. intros n N. destruct (Ascii.eqb (hd0 n) "&") eqn:E; auto. exfalso. apply N, local_hd, E. Qed.
Lemma kick_link : forall s i h c text name nick t u d g e ch k b s', live s -> undisturbed s -> client_of s i h c -> acts s h c text "KICK" [name; nick; t] u d -> nick_fits d -> settled d ->
  ~ In ","%char name -> ~ In ","%char nick -> the_channel s name ch k -> the_client s nick g e -> nick_fits e -> cl_type e = T_USER -> is_on s g ch ->
  (cl_type c = T_USER -> may_kick s u d ch k g e) -> Parse_Request i text s = Ok b s' ->
  ~ is_on s' g ch /\ (~ local_name (ch_name k) -> to_servers s s' i d (kick_text (ch_name k) (cl_id e) t)) /\ (local_name (ch_name k) -> to_no_server s s') /\
  to_members s s' ch d (kick_text (ch_name k) (cl_id e) t) /\ to_nobody_else s s' ch.
Proof.
  intros s i h c text name nick t u d g e ch k b s' L U C AC NF S N1 N2 TC TG NG TE ON MK H. destruct (kick_cast _ _ _ _ _ _ _ _ _ _ _ _ _ _ _ _ L U C AC NF S N1 N2 TC TG NG TE ON MK H) as [R1 R2]. split; auto.
  split; [|split; [|split]].
  - intros NL j x LK OP. destruct (R2 j OP) as (R3 & _). specialize (R3 x LK). rewrite (nonlocal_hd _ NL), orb_false_r in R3. exact R3.
  - intros NL j x LK OP. destruct (R2 j OP) as (R3 & _). specialize (R3 x LK). apply local_hd in NL. rewrite NL, orb_true_r in R3. exact R3.
  - intros j x LK OP. apply (R2 j OP). exact LK.
  - intros j OP X1 X2. apply (R2 j OP); auto.
Qed.
Lemma part_link : forall s i h c text name args t u d ch k b s', live s -> undisturbed s -> client_of s i h c -> acts s h c text "PART" args u d -> args = [name; t] \/ args = [name] /\ t = [] -> nick_fits d -> settled d ->
  name <> [] -> ~ In ","%char name -> the_channel s name ch k -> is_on s u ch -> Parse_Request i text s = Ok b s' ->
  let reason := if cf_moreprivacy (s_conf s) then [] else t in
  ~ is_on s' u ch /\ (~ local_name (ch_name k) -> to_servers s s' i d (part_text (ch_name k) reason)) /\ (local_name (ch_name k) -> to_no_server s s') /\
  to_members s s' ch d (part_text (ch_name k) reason) /\ to_nobody_else s s' ch.
Proof.
  intros s i h c text name args t u d ch k b s' L U C AC EA NF S N1 N2 TC ON H reason. destruct (part_cast _ _ _ _ _ _ _ _ _ _ _ _ _ _ L U C AC EA NF S N1 N2 TC ON H) as [R1 R2]. fold reason in R2. split; auto.
  split; [|split; [|split]].
  - intros NL j x LK OP. destruct (R2 j OP) as (R3 & _). specialize (R3 x LK). rewrite (nonlocal_hd _ NL), orb_false_r in R3. exact R3.
  - intros NL j x LK OP. destruct (R2 j OP) as (R3 & _). specialize (R3 x LK). apply local_hd in NL. rewrite NL, orb_true_r in R3. exact R3.
  - intros j x LK OP. apply (R2 j OP). exact LK.
  - intros j OP X1 X2. apply (R2 j OP); auto.
Qed.
Lemma topic_link : forall s i h c text name t u d ch k b s', live s -> undisturbed s -> client_of s i h c -> acts s h c text "TOPIC" [name; t] u d -> nick_fits d -> settled d ->
  cf_operservermode (s_conf s) = false -> the_channel s name ch k -> (cl_type c = T_USER -> may_set_topic s u d ch k) -> Parse_Request i text s = Ok b s' ->
  (~ local_name (ch_name k) -> to_servers s s' i d (speech (B "TOPIC") name t)) /\ (local_name (ch_name k) -> to_no_server s s') /\
  (forall j x, local_on s j ch x -> i <> j -> is_open s j = true -> written s s' j (if beq t (ch_topic k) then [] else [line_from s d x (speech (B "TOPIC") name t)])) /\
  (cl_type c = T_USER -> is_open s i = true -> written s s' i [line_from s d c (speech (B "TOPIC") name t)]) /\
  (forall j, is_open s j = true -> (forall x, ~ link s j x) -> (forall x, ~ local_on s j ch x) -> i <> j -> written s s' j []).
Proof.
  intros s i h c text name t u d ch k b s' L U C AC NF S N1 TC MK H. pose proof (topic_cast _ _ _ _ _ _ _ _ _ _ _ _ _ L U C AC NF S N1 TC MK H) as R2.
  split; [|split; [|split; [|split]]].
  - intros NL j x LK OP. destruct (R2 j OP) as (R3 & _). specialize (R3 x LK). rewrite (nonlocal_hd _ NL), orb_false_r in R3. exact R3.
  - intros NL j x LK OP. destruct (R2 j OP) as (R3 & _). specialize (R3 x LK). apply local_hd in NL. rewrite NL, orb_true_r in R3. exact R3.
  - intros j x LK NE OP. apply (R2 j OP); auto.
  - intros TU OP. destruct (R2 i OP) as (_ & _ & R & _). rewrite OP in R. auto.
  - intros j OP X1 X2 NE. apply (R2 j OP); auto.
Qed.
