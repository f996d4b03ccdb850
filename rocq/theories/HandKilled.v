(** What is told when a user is killed (C28). *)
From Coq Require Import List Ascii String ZArith NArith Bool Lia Arith.
From Coq Require Import Relations RelationClasses.
From Verif Require Import Bytes Strl Match Lists ListsProofs Hash ParseReq State Messages Monad Core Write Info Chan Mode Msg Login Oper Server Dispatch Conn.
From Verif Require Import Rel RelWrite RelInfo RelBase RelChan RelSrv RelInit RelKey RelCmd RelComp WF RelGone Frame Tree Inv1 Inv2 Inv3 Inv4 Live Spec Observ Unch HandOper HandPrefix HandLine Frames Attrib HandGain HandUser HandChan HandJoin HandKick Output HandDo HandSend SpecMore SpecLink HandCast SpecNick HandNick SpecSync HandSync SpecJoin HandJoined SpecMode SpecInvite HandInvited HandTell SpecUmode HandUmode SpecKill HandKill.
Import ListNotations.
Local Open Scope m_scope.

(** no connection starts to be closed *)
Definition still (s s' : state) : Prop := forall j, option_map co_closing (assoc j (s_conns s')) = option_map co_closing (assoc j (s_conns s)).
#[local] Instance still_pre : PreOrder still.
Proof. split; [intros s j; reflexivity|intros a b c H1 H2 j; rewrite (H2 j); apply H1]. Qed.
#[local] Instance still_wr : WrSub still.
Proof.
  intros s s' H j. destruct H; try reflexivity; unfold set_con; cbn [s_conns set_s_conns].
  - rewrite assoc_aupd. destruct (Nat.eqb_spec i j) as [<- |]; [|reflexivity]. destruct (assoc i (s_conns s)) as [x|]; [|reflexivity]. cbn [option_map]. f_equal. apply (cm_closing _ _ (H x)).
  - generalize (s_conns s). intro l. induction l as [|[k x] l IH]; [reflexivity|]. cbn [map assoc fst snd]. destruct (j =? k)%nat; [reflexivity|exact IH].
  - rewrite assoc_aupd. destruct (Nat.eqb_spec i j) as [<- |]; [|reflexivity]. destruct (assoc i (s_conns s)); reflexivity.
Qed.
(** [run_as], and no connection is being closed *)
Lemma run_as_still : forall s i h c text n args u d cmd b s', live s -> client_of s i h c -> acts s h c text n args u d -> nick_fits d ->
  find (fun c => String.eqb (cm_name c) n) My_Commands = Some cmd -> type_in (cl_type c) (cm_types cmd) = true ->
  cm_min cmd <= List.length args -> (forall m, cm_max cmd = Some m -> List.length args <= m) -> Parse_Request i text s = Ok b s' ->
  exists req s1, still s s1 /\ view s s1 /\ s_out s1 = s_out s /\ same_name (rq_command req) (B n) /\ rq_args req = args /\ cm_fun cmd h req s1 = Ok b s' /\
    (cl_type c = T_USER /\ rq_prefix req = None /\ u = h /\ d = c \/ cl_type c = T_SERVER /\ exists p, rq_prefix req = Some p /\ the_client s p u d /\ forall o s2, Client_Search p s1 = Ok o s2 -> s2 = s1 /\ o = Some u).
Proof.
  intros s i h c text n args u d cmd b s' L C [(T & O & -> & ->)|(T & (p & name & P & N & TC) & SC & TD & NX)] [NI NL] F TI MI MA H.
  { destruct (run_still s i h c text n args cmd b s') as (name & s1 & CL & V & O1 & SN & H1); auto; [congruence|]. exists (mkReq None name args), s1. auto 20. }
  unfold Parse_Request in H. cbv zeta in H. bd H as sc s1 H1. unfold cf in H1. rdgets H1.
  assert (NS : cf_scrubctcp (s_conf s) && ScrubCTCP (trim text) = false). { apply andb_false_iff. destruct (cf_scrubctcp (s_conf s)); [right|auto]. destruct (ScrubCTCP (trim text)) eqn:E; auto. exfalso. apply SC; auto. apply scrub_ctcp. exact E. }
  rewrite NS, P in H. bd H as v s1 H1. unfold Validate_Prefix in H1. bd H1 as o s2 H2. destruct (client_of_get _ _ _ _ _ _ C H2) as [-> ->]. clear H2.
  bd H1 as h' s2 H2. apply nonnull_ok in H2. destruct H2 as [E ->]. injection E as <-. bd H1 as t s2 H2. destruct (client_of_type _ _ _ _ _ _ C H2) as [-> ->]. clear H2.
  bd H1 as cn s2 H2. apply con_ok in H2. destruct H2 as [-> _]. cbn [rq_prefix] in H1. rewrite T in H1. change (is_registered T_SERVER) with true in H1. cbn [negb] in H1. bd H1 as o s2 H2.
  destruct (search_the _ _ _ _ _ _ (live_icli _ L) TC NI H2) as [-> ->]. clear H2. bd H1 as nh s2 H2. apply Client_NextHop_next in H2. destruct H2 as [-> N2]. rewrite (next_hop_fun _ _ _ N2 _ NX) in H1. unfold heq in H1. rewrite Nat.eqb_refl in H1. cbn [negb] in H1. apply ret_ok in H1. destruct H1 as [-> ->].
  apply (Handle_Request_cmd _ _ _ _ (mkReq (Some p) name args) _ _ _ _ C N F) in H. unfold run_command in H. rewrite TI in H. cbn [negb] in H. bd H as u1 s1 H1. unfold argc in H. cbn [rq_args] in H.
  assert (CL : still s s1) by (intro j; unfold whenM in H1; destruct (negb _) in H1; [eapply penalty_still; exact H1|apply ret_ok in H1; destruct H1 as [_ ->]; reflexivity]).
  assert (V : view s s1 /\ s_out s1 = s_out s). { unfold whenM in H1. destruct (negb _) in H1; [destruct (SetPenalty_view _ _ _ _ _ H1) as (V & _ & O); auto|]. apply ret_ok in H1. destruct H1 as [_ ->]. split; reflexivity. }
  replace ((List.length args <? cm_min cmd) || match cm_max cmd with Some m => m <? List.length args | None => false end) with false in H.
  2: { symmetry. apply orb_false_iff. split; [apply Nat.ltb_ge; exact MI|]. destruct (cm_max cmd) as [m|]; auto. apply Nat.ltb_ge. apply MA. reflexivity. }
  bd H as u2 s2 H2. apply modify_ok in H2. subst s2. assert (V2 : view s (set_s_wcounter 0 s1)) by (transitivity s1; [apply V|split; reflexivity]).
  exists (mkReq (Some p) name args), (set_s_wcounter 0 s1). split; [exact CL|]. split; auto. split; [apply V|]. split; auto. split; auto. split; auto. right. split; auto. exists p. split; auto. split; auto. intros o s2 H3.
  eapply search_the; [|eapply view_the; [exact V2|exact TC]|exact NI|exact H3]. intros x cx A. rewrite (v_heap _ _ V2) in A. exact (live_icli _ L _ _ A).
Qed.
Theorem kill_local : forall s i h c text name t u d g e q b s', live s -> undisturbed s -> client_of s i h c -> acts s h c text "KILL" [name; t] u d -> nick_fits d -> settled d -> server_settled s ->
  (cl_type c = T_USER -> In "o"%char (cl_modes c)) -> the_client s name g e -> cl_type e = T_USER -> cl_conn e = Some q -> nick_fits e -> settled e -> List.length t < 400 -> ~ In NUL t ->
  Parse_Request i text s = Ok b s' ->
  let r := kill_reason c t in
  lookup g (s_heap s') = None /\ is_open s' q = false /\
  forall j, q <> j -> is_open s j = true -> ~ warned s j -> ~ watches s j ->
  (forall x, link s j x -> written s s' j ((if (i =? j)%nat then [] else [relayed d (kill_text name r)]) ++ [relayed e (quit_text r)])) /\
  (forall x, near s g j x -> written s s' j [line_from s e x (quit_text (to_users s e (Some r)))]) /\
  ((forall x, ~ link s j x) -> (forall x, ~ near s g j x) -> written s s' j []).
Proof.
  intros s i h c text name t u d g e q b s' L U C AC NF S SS OPR TC TE CN NE SE LT NZ H r. destruct (actor _ _ _ _ _ _ _ _ _ L U C AC NF) as (T & KY & NC & AH & CI & AU & TD & F & NU & NX).
  assert (TYc : cl_type c = T_USER \/ cl_type c = T_SERVER) by (destruct AC as [(X & _)|(X & _)]; auto).
  eapply run_as_still in H; [|exact L|exact C|exact AC|exact NF|reflexivity|destruct TYc as [-> | ->]; reflexivity|cbn; lia|intros m E; cbn in E; first [discriminate E|injection E as <-; cbn; lia]].
  destruct H as (req & s1 & CL1 & V & O1 & SN & EA & H & Q). change (IRC_KILL h req s1 = Ok b s') in H. pose proof (acts_req _ _ _ _ _ _ _ V Q) as Q1.
  assert (AH1 : assoc h (s_heap s1) = Some c) by (rewrite (v_heap _ _ V); exact AH). assert (AU1 : assoc u (s_heap s1) = Some d) by (rewrite (v_heap _ _ V); exact AU).
  assert (AG : assoc g (s_heap s) = Some e) by (destruct TC as [[_ K] _]; rewrite lookup_assoc in K; exact K). assert (AG1 : assoc g (s_heap s1) = Some e) by (rewrite (v_heap _ _ V); exact AG).
  assert (SS1 : server_settled s1) by (intros me; rewrite (v_heap _ _ V); apply SS).
  assert (A0 : arg req 0 = name) by (unfold arg; rewrite EA; reflexivity). assert (A1 : arg req 1 = t) by (unfold arg; rewrite EA; reflexivity).
  unfold IRC_KILL in H. bd H as ty s2 H1. unfold Client_Type in H1. bd H1 as c1 s3 H2. apply cli_ok in H2. destruct H2 as [H2 ->]. rewrite AH1 in H2. injection H2 as <-. apply ret_ok in H1. destruct H1 as [-> ->].
  bd H as al s2 H1.
  assert (E : s2 = s1 /\ al = true).
  { destruct Q1 as [(TU & PX & -> & ->)|(TS & _)]; [|rewrite TS in H1; change (ctype_eqb T_SERVER T_SERVER) with true in H1; cbv iota in H1; apply ret_ok in H1; tauto].
    rewrite TU in H1. change (ctype_eqb T_USER T_SERVER) with false in H1. cbv iota in H1. bd H1 as o s3 H2. apply ret_ok in H1. destruct H1 as [-> ->].
    unfold Op_Check in H2. bd H2 as srv s4 H3. apply is_type_ok in H3. destruct H3 as (-> & c1 & B1 & ->). rewrite AH1 in B1. injection B1 as <-. rewrite TU, PX in H2. change (ctype_eqb T_USER T_SERVER) with false in H2. cbn [andb] in H2. bd H2 as o1 s4 H3. apply ret_ok in H3. destruct H3 as [-> ->].
    bd H2 as cs s4 H3. apply is_type_ok in H3. destruct H3 as (-> & _). bd H2 as op s4 H3. apply HasMode_ok in H3. destruct H3 as (-> & c1 & B1 & ->). rewrite AH1 in B1. injection B1 as <-. assert (MO : strchr0 "o" (cl_modes c) = true) by (change (memb "o" (cl_modes c) = true); apply memb_In; auto). rewrite MO in H2. cbn [negb] in H2.
    bd H2 as ic s4 H3. apply Client_Conn_ok in H3. destruct H3 as (-> & c1 & B1 & ->). rewrite AH1 in B1. injection B1 as <-. rewrite CI in H2. cbn [is_some negb andb] in H2. bd H2 as rm s4 H3. unfold cf in H3. rdgets H3. apply ret_ok in H2. destruct H2 as [-> ->]. auto. }
  destruct E as [-> ->]. clear H1. cbn [negb] in H. bd H as o s2 H1.
  assert (E : s2 = s1 /\ match o with Some p => p | None => This_Server end = u). { destruct Q1 as [(_ & EP & -> & _)|(_ & p & EP & _ & SEA)]; rewrite EP in H1; [apply ret_ok in H1; destruct H1 as [-> ->]; auto|]. destruct (SEA _ _ H1) as [-> ->]. auto. }
  destruct E as [-> EU]. clear H1. cbv zeta in H. rewrite EU, A0, A1 in H. clear o EU. bd H as u1 s2 H1.
  (* the notice *)
  assert (W2 : view s1 s2 /\ forall j, ~ warned s1 j -> written s1 s2 j []).
  { unfold whenM in H1. destruct (negb (heq h This_Server)); [|apply ret_ok in H1; destruct H1 as [_ ->]; split; [reflexivity|intros; apply written_nil; reflexivity]].
    destruct (prints_Mask u d _ s1 _ AU1 (prints_S name _ _ _ (prints_S t _ _ _ (prints_nil s1)))) as [mk PM]. eapply snotice_quiet in H1; [exact H1|eapply view_tree; eauto|eapply view_keyed; eauto|exact SS1|exact PM]. }
  assert (CL2 : still s1 s2) by (unfold whenM in H1; destruct (negb (heq h This_Server)); [match type of H1 with ?m _ = _ => assert (QN : rel still m) by rel_auto; exact (QN _ _ _ H1) end|apply ret_ok in H1; destruct H1 as [_ ->]; reflexivity]).
  clear H1. destruct W2 as [V2 W2]. assert (V02 : view s s2) by (transitivity s1; auto). pose proof (view_tree _ _ V02 T) as T2.
  assert (AH2 : assoc h (s_heap s2) = Some c) by (rewrite (v_heap _ _ V02); exact AH). assert (AU2 : assoc u (s_heap s2) = Some d) by (rewrite (v_heap _ _ V02); exact AU). assert (AG2 : assoc g (s_heap s2) = Some e) by (rewrite (v_heap _ _ V02); exact AG).
  bd H as rs s3 H1.
  assert (E : s3 = s2 /\ rs = r).
  { unfold r, kill_reason. destruct TYc as [TU|TS].
    - rewrite TU in H1. rewrite TU. change (ctype_eqb T_USER T_USER) with true in H1 |- *. cbv iota in H1 |- *. unfold line in H1. apply vsn_ok in H1. destruct H1 as (v & M & ->). destruct (prints_ID h c _ s2 _ AH2 (prints_S t _ _ _ (prints_nil s2)) _ _ M) as [-> ->]. split; auto.
      rewrite (fits_type_id _ (nick_nonempty _ _ _ _ L U C TU)). assert (EF : fmt (B "KILLed by %s: %s") [FS (cl_id c); FS t] = B "KILLed by " ++ cl_id c ++ B ": " ++ t). { change (B "KILLed by " ++ cl_id c ++ B ": " ++ t ++ [] = B "KILLed by " ++ cl_id c ++ B ": " ++ t). rewrite app_nil_r. reflexivity. }
      rewrite EF. rewrite cut0_plain.
      + apply firstn_all2. rewrite !app_length. assert (LN : List.length (cl_id c) < 32). { destruct AC as [(_ & _ & _ & <-)|(X & _)]; [apply NF|congruence]. } change (List.length (B "KILLed by ")) with 10. change (List.length (B ": ")) with 2. unfold COMMAND_LEN. lia.
      + rewrite !in_app_iff. intros [X|[X|[X|X]]]; [cbn in X; repeat (destruct X as [X|X]; [discriminate X|]); exact X|exact (nick_nul _ _ _ _ L U C TU X)|cbn in X; repeat (destruct X as [X|X]; [discriminate X|]); exact X|exact (NZ X)].
    - rewrite TS in H1. rewrite TS. change (ctype_eqb T_SERVER T_USER) with false in H1 |- *. cbv iota in H1 |- *. apply ret_ok in H1. destruct H1 as [-> ->]. split; auto. apply strlcpy_short. unfold COMMAND_LEN. lia. }
  destruct E as [-> ->]. clear H1. clearbody r. unfold IRC_KillClient in H. bd H as cl s3 H1. destruct (search_the _ _ _ _ _ _ (icli_view _ _ V02 (live_icli _ L)) (view_the _ _ _ _ _ V02 TC) (proj1 NE) H1) as [-> ->]. clear H1.
  bd H as ty s3 H1. unfold Client_Type in H1. bd H1 as c1 s4 H2. apply cli_ok in H2. destruct H2 as [H2 ->]. rewrite AG2 in H2. injection H2 as <-. apply ret_ok in H1. destruct H1 as [-> ->]. rewrite TE in H. change (ctype_eqb T_USER T_USER) with true in H. cbn [orb negb andb] in H.
  bd H as u2 s3 H1. assert (CL3 : still s2 s3) by (match type of H1 with ?m _ = _ => assert (QN : rel still m) by rel_auto; exact (QN _ _ _ H1) end). eapply to_servers in H1; [|exact T2|rewrite (v_clients _ _ V02); exact NC|exact AU2|apply NF|apply prints_S, prints_S, prints_nil]. destruct H1 as [V3 G].
  bd H as my s4 H1. apply Client_Conn_ok in H1. destruct H1 as (-> & _). bd H as k s4 H1. apply Client_Conn_ok in H1. destruct H1 as (-> & c1 & B1 & ->). assert (AG3 : assoc g (s_heap s3) = Some e) by (rewrite (v_heap _ _ V3); exact AG2). rewrite AG3 in B1. injection B1 as <-. rewrite CN in H.
  assert (V03 : view s s3) by (transitivity s2; auto). pose proof (view_tree _ _ V03 T) as T3.
  bd H as u3 s4 H1. assert (SS3 : server_settled s3) by (intros me; rewrite (v_heap _ _ V03); apply SS).
  eapply close_cast with (u := g) (d := e) in H1; [|exact T3|exact SS3|exact (view_keyed _ _ V03 KY)|rewrite (v_clients _ _ V03); exact NC| |exact AG3|exact CN|exact TE|exact SE| |apply NE].
  2: { intros cn K. destruct (live_wf2 _ L) as [_ [CP _]]. assert (CL : still s s3) by (transitivity s1; auto; transitivity s2; auto). specialize (CL q). unfold connid in *. rewrite K in CL. destruct (assoc q (s_conns s)) as [cn0|] eqn:K0; [|discriminate CL]. injection CL as ->. destruct (CP _ _ K0). assumption. }
  2: { destruct (live_icli _ L _ _ AG) as [_ _ Z _ _]. destruct Z. constructor; auto. apply NE. }
  destruct H1 as (EH & CO & P).
  assert (E : s4 = s'). { destruct my as [k|]; [|apply ret_ok in H; destruct H as [_ ->]; reflexivity]. bd H as oc s5 H1. apply ret_ok in H. destruct H as [_ ->]. unfold Conn_GetClient in H1. bd H1 as cn s6 H2. apply con_ok in H2. destruct H2 as [-> _]. apply ret_ok in H1. destruct H1 as [_ ->]. reflexivity. }
  subst s4. clear H. split; [rewrite EH, lookup_assoc, RelGone.assoc_adel, Nat.eqb_refl; reflexivity|]. split; [exact CO|].
  intros j NEJ OP NW NWA. assert (NW1 : ~ warned s1 j). { intro X. apply NW. exact (warned_view _ _ _ V X). }
  pose proof (W2 j NW1) as K1. destruct (G j) as [G1 G2]. rewrite (view_open _ _ _ V02) in G1. specialize (G1 OP). destruct (P j NEJ) as (P0 & P1 & P2); [rewrite (view_open _ _ _ V03); exact OP|intros (g0 & x & X); apply NWA; exists g0, x; rewrite (v_heap _ _ V03) in X; exact X|].
  assert (LK : forall x, link s2 j x <-> link s j x) by (intro x; unfold link, known; rewrite (v_clients _ _ V02), (v_heap _ _ V02); reflexivity).
  assert (HL : forall g0, hit s3 None None g0 j -> exists x, link s j x). { intros g0 X. apply (view_hit _ _ _ _ _ _ V03) in X. destruct X as (x & X1 & X2 & X3 & _). exists x, g0. split; auto. split; [eapply tr_listed; eauto|rewrite lookup_assoc; exact X1]. }
  assert (LH : forall x, link s j x -> exists g0, hit s3 None None g0 j). { intros x (g0 & [_ X] & X2 & X3). rewrite lookup_assoc in X. exists g0. apply (view_hit _ _ _ _ _ _ V03). exists x. split; auto. split; auto. split; auto. split; auto. discriminate. }
  assert (OUT : forall a b0, written s2 s3 j a -> written s3 s' j b0 -> written s s' j (a ++ b0)). { intros a b0 X Y. change (a ++ b0) with ([] ++ (a ++ b0)). apply (written_from _ _ _ _ _ O1). eapply written_app; [exact K1|]. eapply written_app; [exact X|exact Y]. }
  assert (NN : forall x y, link s j x -> ~ near s g j y). { intros x y (g0 & [_ K] & K2 & K3) (g' & ch & _ & _ & _ & K4 & K5 & K6). rewrite lookup_assoc in K, K4. destruct (conn_client _ _ _ _ _ _ T K K4 K3 K5). congruence. }
  assert (NV : forall y, near s3 g j y <-> near s g j y) by (intro y; apply view_near; exact V03).
  assert (EFM : fmt (B "KILL %s :%s") [FS name; FS r] = kill_text name r). { change (B "KILL " ++ name ++ B " :" ++ r ++ [] = kill_text name r). rewrite app_nil_r. reflexivity. }
  rewrite EFM in G1. split; [|split].
  - intros x LJ. destruct (LH _ LJ) as [g0 HG]. apply OUT; [|exact (P0 g0 HG)]. destruct (Nat.eqb_spec i j) as [<- |N].
    + apply G2. intros y LY. apply LK in LY. destruct LY as (g1 & [_ K] & K2 & K3). rewrite lookup_assoc in K. destruct (conn_client _ _ _ _ _ _ T K AH K3 CI) as [-> ->]. exists h. auto.
    + apply (G1 x); [apply LK; exact LJ|]. intros g1 E K. injection E as <-. rewrite AH2 in K. injection K as <-. destruct LJ as (g2 & [_ K] & K2 & K3). congruence.
  - intros x NR. match goal with |- written _ _ _ ?x => change x with ([] ++ x) end. apply OUT.
    + apply G2. intros y LY. apply LK in LY. destruct (NN _ _ LY NR).
    + unfold to_users. rewrite <- (v_conf _ _ V03), <- (view_line _ _ _ _ _ V03). apply P1. apply NV. exact NR.
  - intros X1 X2. change (@nil bytes) with (@nil bytes ++ []). apply OUT; [apply G2; intros y LY; apply LK in LY; destruct (X1 y LY)|apply P2; [intros g0 HG; destruct (HL _ HG) as [x X]; exact (X1 x X)|intros y Y; apply NV in Y; exact (X2 y Y)]].
Qed.
