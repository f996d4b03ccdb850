(** SQUIT removes exactly the part of the network behind its target (C26). *)
From Coq Require Import List Ascii String ZArith NArith Bool Lia Arith.
From Coq Require Import Relations RelationClasses.
From Verif Require Import Bytes Strl Match Lists ListsProofs Hash ParseReq State Messages Monad Core Write Info Chan Mode Msg Login Oper Server Dispatch Conn.
From Verif Require Import Rel RelWrite RelInfo RelBase RelChan RelSrv RelInit RelKey RelCmd RelComp WF RelGone Frame Tree Inv1 Inv2 Inv4 Live Spec Observ Unch HandOper HandPrefix HandLine Frames Attrib HandGain HandUser HandChan HandJoin HandKick Output HandDo HandSend SpecLink HandCast SpecSplit Split.
Import ListNotations.
Local Open Scope m_scope.

Lemma wr_behind : forall s s1 h x, wr s s1 -> (behind s1 h x <-> behind s h x).
Proof.
  intros s s1 h x W. split; intro H; induction H as [|x p c H IH A1 A2]; try constructor.
  - rewrite lookup_assoc in A1. destruct (wr_cli_back _ _ _ _ W A1) as (c0 & y & B1 & E). subst c. eapply behind_step; [exact IH|rewrite lookup_assoc; exact B1|exact A2].
  - rewrite lookup_assoc in A1. destruct (wr_cli _ _ _ _ W A1) as (y & B1). eapply behind_step; [exact IH|rewrite lookup_assoc; exact B1|exact A2].
Qed.
Lemma wr_removed : forall s s1 h s', wr s s1 -> removed h s1 s' -> removed h s s'.
Proof.
  intros s s1 h s' W [R1 R2 R3 R4]. destruct (wr_same _ _ W). split.
  - intro x. rewrite R1, w_clients, (wr_behind _ _ _ _ W). reflexivity.
  - intros x c [L A] N. rewrite lookup_assoc in A. destruct (wr_cli _ _ _ _ W A) as (y & B1). destruct (R2 x (set_cl_cloaked y c)) as (c' & K & v & ->).
    + split; [rewrite w_clients; exact L|rewrite lookup_assoc; exact B1].
    + rewrite (wr_behind _ _ _ _ W). exact N.
    + exists (set_cl_cloaked v (set_cl_cloaked y c)). split; [exact K|]. exists v. destruct c; reflexivity.
  - intro m. rewrite R3, w_members, (wr_behind _ _ _ _ W).
    assert (Q : (exists c, lookup (mb_client m) (s_heap s1) = Some c /\ (cl_type c = T_USER \/ cl_type c = T_SERVICE)) <-> exists c, lookup (mb_client m) (s_heap s) = Some c /\ (cl_type c = T_USER \/ cl_type c = T_SERVICE)).
    { split; intros (c & A & T); rewrite lookup_assoc in A.
      - destruct (wr_cli_back _ _ _ _ W A) as (c0 & y & B1 & E). subst c. exists c0. rewrite lookup_assoc. auto.
      - destruct (wr_cli _ _ _ _ W A) as (y & B1). exists (set_cl_cloaked y c). rewrite lookup_assoc. auto. }
    rewrite Q. reflexivity.
  - intros ch k. rewrite R4, w_members. unfold exists_chan. rewrite w_chans. reflexivity.
Qed.
Lemma run_link : forall s i h c text n args u d p name cmd b s', live s -> client_of s i h c -> cl_type c = T_SERVER -> parse_line (trim text) = Some (mkReq (Some p) name args) -> same_name name (B n) -> the_client s p u d ->
  (cf_scrubctcp (s_conf s) = true -> ~ exists a b, trim text = a ++ ":"%char :: "001"%char :: b) -> next_hop s u h -> cl_id d <> [] ->
  find (fun c => String.eqb (cm_name c) n) My_Commands = Some cmd -> type_in (cl_type c) (cm_types cmd) = true -> cm_penalty cmd = 0%Z ->
  cm_min cmd <= List.length args -> (forall m, cm_max cmd = Some m -> List.length args <= m) -> Parse_Request i text s = Ok b s' ->
  cm_fun cmd h (mkReq (Some p) name args) (set_s_wcounter 0 s) = Ok b s'.
Proof.
  intros s i h c text n args u d p name cmd b s' L C T P N TC SC NX NI F TI PE MI MA H.
  unfold Parse_Request in H. cbv zeta in H. bd H as sc s1 H1. unfold cf in H1. rdgets H1.
  assert (NS : cf_scrubctcp (s_conf s) && ScrubCTCP (trim text) = false). { apply andb_false_iff. destruct (cf_scrubctcp (s_conf s)); [right|auto]. destruct (ScrubCTCP (trim text)) eqn:E; auto. exfalso. apply SC; auto. apply scrub_ctcp. exact E. }
  rewrite NS, P in H. bd H as v s1 H1. unfold Validate_Prefix in H1. bd H1 as o s2 H2. destruct (client_of_get _ _ _ _ _ _ C H2) as [-> ->]. clear H2.
  bd H1 as h' s2 H2. apply nonnull_ok in H2. destruct H2 as [E ->]. injection E as <-. bd H1 as t s2 H2. destruct (client_of_type _ _ _ _ _ _ C H2) as [-> ->]. clear H2.
  bd H1 as cn s2 H2. apply con_ok in H2. destruct H2 as [-> _]. cbn [rq_prefix] in H1. rewrite T in H1. change (is_registered T_SERVER) with true in H1. cbn [negb] in H1. bd H1 as o s2 H2.
  destruct (search_the _ _ _ _ _ _ (live_icli _ L) TC NI H2) as [-> ->]. clear H2. bd H1 as nh s2 H2. apply Client_NextHop_next in H2. destruct H2 as [-> N2]. rewrite (next_hop_fun _ _ _ N2 _ NX) in H1. unfold heq in H1. rewrite Nat.eqb_refl in H1. cbn [negb] in H1. apply ret_ok in H1. destruct H1 as [-> ->].
  apply (Handle_Request_cmd _ _ _ _ (mkReq (Some p) name args) _ _ _ _ C N F) in H. unfold run_command in H. rewrite TI in H. cbn [negb] in H. bd H as u1 s1 H1. unfold argc in H. cbn [rq_args] in H.
  rewrite PE in H1. change (negb (0 =? 0)%Z) with false in H1. cbn [whenM] in H1. apply ret_ok in H1. destruct H1 as [_ ->].
  replace ((List.length args <? cm_min cmd) || match cm_max cmd with Some m => m <? List.length args | None => false end) with false in H.
  2: { symmetry. apply orb_false_iff. split; [apply Nat.ltb_ge; exact MI|]. destruct (cm_max cmd) as [m|]; auto. apply Nat.ltb_ge. apply MA. reflexivity. }
  bd H as u2 s2 H2. apply modify_ok in H2. subst s2. exact H.
Qed.
Lemma run_plain : forall s i h c text n args cmd b s', client_of s i h c -> cl_type c <> T_SERVER -> orders s text n args ->
  find (fun c => String.eqb (cm_name c) n) My_Commands = Some cmd -> type_in (cl_type c) (cm_types cmd) = true -> cm_penalty cmd = 0%Z ->
  cm_min cmd <= List.length args -> (forall m, cm_max cmd = Some m -> List.length args <= m) -> Parse_Request i text s = Ok b s' ->
  exists name, same_name name (B n) /\ cm_fun cmd h (mkReq None name args) (set_s_wcounter 0 s) = Ok b s'.
Proof.
  intros s i h c text n args cmd b s' C T [(name & P & N) SC] F TI PE MI MA H. unfold Parse_Request in H. cbv zeta in H. bd H as sc s1 H1. unfold cf in H1. rdgets H1.
  assert (NS : cf_scrubctcp (s_conf s) && ScrubCTCP (trim text) = false). { apply andb_false_iff. destruct (cf_scrubctcp (s_conf s)); [right|auto]. destruct (ScrubCTCP (trim text)) eqn:E; auto. exfalso. apply SC; auto. apply scrub_ctcp. exact E. }
  rewrite NS, P in H. bd H as v s1 H1. unfold Validate_Prefix in H1. bd H1 as o s2 H2. destruct (client_of_get _ _ _ _ _ _ C H2) as [-> ->]. clear H2.
  bd H1 as h' s2 H2. apply nonnull_ok in H2. destruct H2 as [E ->]. injection E as <-. bd H1 as t s2 H2. destruct (client_of_type _ _ _ _ _ _ C H2) as [-> ->]. clear H2.
  bd H1 as cn s2 H2. apply con_ok in H2. destruct H2 as [-> _]. cbn [rq_prefix] in H1. destruct (ctype_eqb (cl_type c) T_SERVER) eqn:TS; [apply ctype_eqb_eq in TS; contradiction|]. cbn [andb] in H1. apply ret_ok in H1. destruct H1 as [-> ->].
  apply (Handle_Request_cmd _ _ _ _ (mkReq None name args) _ _ _ _ C N F) in H. unfold run_command in H. rewrite TI in H. cbn [negb] in H. bd H as u s1 H1. unfold argc in H. cbn [rq_args] in H.
  rewrite PE in H1. change (negb (0 =? 0)%Z) with false in H1. cbn [whenM] in H1. apply ret_ok in H1. destruct H1 as [_ ->].
  replace ((List.length args <? cm_min cmd) || match cm_max cmd with Some m => m <? List.length args | None => false end) with false in H.
  2: { symmetry. apply orb_false_iff. split; [apply Nat.ltb_ge; exact MI|]. destruct (cm_max cmd) as [m|]; auto. apply Nat.ltb_ge. apply MA. reflexivity. }
  bd H as u2 s2 H2. apply modify_ok in H2. subst s2. exists name. auto.
Qed.
Lemma tree_wr : forall s s1, wr s s1 -> tree s -> tree s1.
Proof. intros s s1 W T. eapply tree_frame; [apply fheap_wr|apply fconn_wr|exact T]; auto. Qed.
Lemma wf2_wrs : forall s s1, wr s s1 -> wf2 s -> wf2 s1.
Proof. intros s s1 W [A B]. split; [exact (wf_wrs _ _ W A)|]. eapply copen_fconn; eauto. apply fconn_wr. auto. Qed.
Lemma wr_the : forall s s1 p u d, wr s s1 -> the_client s p u d -> exists y, the_client s1 p u (set_cl_cloaked y d).
Proof.
  intros s s1 p u d W (K & C & UN). destruct (wr_same _ _ W). destruct K as [K1 K2]. rewrite lookup_assoc in K2. destruct (wr_cli _ _ _ _ W K2) as (y & B1). exists y.
  assert (CA : forall g, called s1 p g -> called s p g).
  { intros g (x & [L A] & SN). rewrite lookup_assoc in A. destruct (wr_cli_back _ _ _ _ W A) as (c0 & y0 & B0 & E). subst x. exists c0. split; [|exact SN]. split; [rewrite <- w_clients; exact L|rewrite lookup_assoc; exact B0]. }
  split; [split; [rewrite w_clients; exact K1|rewrite lookup_assoc; exact B1]|]. split; [|intros g' Cg; auto].
  destruct C as (d' & [_ A] & SN). rewrite lookup_assoc in A. rewrite K2 in A. injection A as <-. exists (set_cl_cloaked y d). split; [|exact SN]. split; [rewrite w_clients; exact K1|rewrite lookup_assoc; exact B1].
Qed.
Lemma view_removed : forall s s1 h s', view s s1 -> removed h s1 s' -> removed h s s'.
Proof.
  intros s s1 h s' V [R1 R2 R3 R4]. destruct V.
  assert (BE : forall x, behind s1 h x <-> behind s h x).
  { intro x. split; intro H; induction H as [|x p c H IH A1 A2]; try constructor; (eapply behind_step; [exact IH| |exact A2]); congruence. }
  split.
  - intro x. rewrite R1, v_clients, BE. reflexivity.
  - intros x c [L A] N. destruct (R2 x c) as (c' & K & E); [split; congruence|rewrite BE; exact N|]. eauto.
  - intro m. rewrite R3, v_members, BE, v_heap. reflexivity.
  - intros ch k. rewrite R4, v_members. unfold exists_chan. rewrite v_chans. reflexivity.
Qed.
Lemma squit_effect : forall s h c u d g e req b s', tree s -> wf2 s -> assoc h (s_heap s) = Some c -> assoc u (s_heap s) = Some d -> assoc g (s_heap s) = Some e -> g <> This_Server ->
  squit_do h u g req s = Ok b s' ->
  (cl_conn e <> None \/ cl_type d = T_SERVER -> removed g s s') /\ (cl_conn e = None -> cl_type d <> T_SERVER -> wr s s').
Proof.
  intros s h c u d g e req b s' T W AH AU AG NG H. unfold squit_do in H. bd H as cc s1 H1. apply Client_Conn_ok in H1. destruct H1 as (-> & c1 & _ & ->).
  bd H as tc s1 H1. apply Client_Conn_ok in H1. destruct H1 as (-> & e1 & A1 & ->). rewrite AG in A1. injection A1 as <-.
  bd H as nh s1 H1. apply Client_NextHop_next in H1. destruct H1 as [-> _]. bd H as msg s1 H1.
  assert (W1 : wr s s1). { match type of H1 with ?m _ = _ => assert (Q : rel wr m) by rel_auto; exact (Q _ _ _ H1) end. }
  clear H1. destruct (cl_conn e) as [i|] eqn:CE.
  - split; [|intros; discriminate]. intros _. bd H as u1 s2 H2. assert (W2 : wr s1 s2). { match type of H2 with ?m _ = _ => assert (Q : rel wr m) by rel_auto; exact (Q _ _ _ H2) end. }
    clear H2. pose proof (wr_trans _ _ _ W1 W2) as W3. clear W1 W2. bd H as u2 s3 H2. apply ret_ok in H. destruct H as [_ ->]. destruct u2.
    destruct (wr_cli _ _ _ _ W3 AG) as (y & B1). pose proof (tree_wr _ _ W3 T) as T2. destruct (tr_h2c _ T2 _ _ i B1 CE) as (cn & C1 & C2).
    destruct (wf2_close_removed _ _ _ _ _ _ _ T2 (wf2_wrs _ _ W3 W) C1 H2) as (h' & c' & E & _ & _ & R & _). rewrite C2 in E. injection E as <-. eapply wr_removed; eauto.
  - bd H as fs s2 H2. apply is_type_ok in H2. destruct H2 as (-> & d1 & A1 & ->). destruct (wr_cli _ _ _ _ W1 AU) as (y & B1). rewrite B1 in A1. injection A1 as <-. change (cl_type (set_cl_cloaked y d)) with (cl_type d) in H.
    bd H as u2 s3 H2. apply ret_ok in H. destruct H as [_ ->]. destruct (ctype_eqb (cl_type d) T_SERVER) eqn:TS; cbn [negb] in H2.
    + apply ctype_eqb_eq in TS. split; [|intros; contradiction]. intros _. bd H2 as lm s2 H3. assert (W2 : wr s1 s2). { match type of H3 with ?m _ = _ => assert (Q : rel wr m) by rel_auto; exact (Q _ _ _ H3) end. }
      pose proof (wr_trans _ _ _ W1 W2) as W3. clear W1 W2 H3. destruct (Client_Destroy_ok _ _ _ _ _ _ _ H2 (proj1 (wf2_wrs _ _ W3 W))) as (D & G & WH).
      destruct (wr_cli _ _ _ _ W3 AG) as (z & B2). destruct (gone_removed s2 s2 g _ D s3 (tree_wr _ _ W3 T) WH NG B2) as [R _]; auto. eapply wr_removed; eauto.
    + split; [intros [X|X]; [congruence|apply ctype_eqb_eq in X; congruence]|]. intros _ _. eapply wr_trans; [exact W1|]. match type of H2 with ?m _ = _ => assert (Q : rel wr m) by rel_auto; exact (Q _ _ _ H2) end.
Qed.
Lemma squit_runs : forall s h c pfx name t why u d g e b s', tree s -> wf2 s -> icli s -> assoc h (s_heap s) = Some c -> assoc u (s_heap s) = Some d -> the_client s t g e -> cl_id e <> [] -> g <> This_Server ->
  (cl_type c = T_USER /\ In "o"%char (cl_modes c) /\ pfx = None /\ u = h \/
   cl_type c = T_SERVER /\ (exists p, pfx = Some p /\ the_client s p u d) /\ cl_id d <> [] /\
   (cl_type d = T_SERVER \/ cl_type d <> T_SERVER /\ In "o"%char (cl_modes d) /\ cf_allowremoteoper (s_conf s) = true)) ->
  IRC_SQUIT h (mkReq pfx name [t; why]) s = Ok b s' ->
  (cl_conn e <> None \/ cl_type d = T_SERVER -> removed g s s') /\ (cl_conn e = None -> cl_type d <> T_SERVER -> wr s s').
Proof.
  intros s h c pfx name t why u d g e b s' T W I AH AU TC NI NG Q H. unfold IRC_SQUIT in H. bd H as c1 s1 H1. apply cli_ok in H1. destruct H1 as [A1 ->]. rewrite AH in A1. injection A1 as <-. cbv zeta in H.
  change (arg (mkReq pfx name [t; why]) 0) with t in H.
  assert (ND : negb (ctype_eqb (cl_type c) T_SERVER) && negb (memb "o" (cl_modes c)) = false).
  { destruct Q as [(_ & O & _)|(-> & _)]; [|reflexivity]. apply memb_In in O. rewrite O. apply andb_false_r. }
  rewrite ND in H. bd H as r s1 H1. cbn [rq_prefix] in H1.
  assert (R : s1 = s /\ r = Some u).
  { destruct Q as [(TU & O & -> & ->)|(TS & (p & -> & TP) & NU & Q)].
    - apply ret_ok in H1. destruct H1; auto.
    - rewrite TS in H1. change (ctype_eqb T_SERVER T_SERVER) with true in H1. cbv iota in H1. bd H1 as o s2 H2. destruct (search_the _ _ _ _ _ _ I TP NU H2) as [-> ->]. clear H2.
      bd H1 as f s2 H2. apply nonnull_ok in H2. destruct H2 as [E ->]. injection E as <-. bd H1 as fs s2 H2. apply is_type_ok in H2. destruct H2 as (-> & d1 & A1 & ->). rewrite AU in A1. injection A1 as <-.
      bd H1 as ok s2 H2. assert (OK : s2 = s /\ ok = true).
      { destruct Q as [TD|(TD & OD & AR)]; [rewrite TD in H2; apply ret_ok in H2; destruct H2; auto|]. destruct (ctype_eqb (cl_type d) T_SERVER) eqn:E; [apply ctype_eqb_eq in E; contradiction|]. bd H2 as oc s3 H3. apply ret_ok in H2. destruct H2 as [-> E3]. subst s3.
        unfold Op_Check in H3. bd H3 as srv s3 H4. apply is_type_ok in H4. destruct H4 as (-> & c1 & A1 & ->). rewrite AH in A1. injection A1 as <-. cbn [rq_prefix] in H3. rewrite TS in H3. change (ctype_eqb T_SERVER T_SERVER) with true in H3. cbv iota in H3.
        bd H3 as o s3 H4. destruct (search_the _ _ _ _ _ _ I TP NU H4) as [-> ->]. clear H4. bd H3 as csrv s3 H4. apply is_type_ok in H4. destruct H4 as (-> & d1 & A1 & ->). rewrite AU in A1. injection A1 as <-. rewrite E in H3. cbn [andb] in H3.
        bd H3 as op s3 H4. apply HasMode_ok in H4. destruct H4 as (-> & d1 & A1 & ->). rewrite AU in A1. injection A1 as <-. apply memb_In in OD. rewrite strchr0_memb, OD in H3 by discriminate. cbn [negb] in H3. bd H3 as i s3 H4. apply Client_Conn_ok in H4. destruct H4 as (-> & _). bd H3 as rem s3 H4. unfold cf in H4. rdgets H4. rewrite AR in H3. cbn [negb] in H3. rewrite andb_false_r in H3. apply ret_ok in H3. destruct H3 as [-> ->]. auto. }
      destruct OK as [-> ->]. apply ret_ok in H1. destruct H1; auto. }
  clear H1. destruct R as [-> ->]. bd H as u1 s1 H1. assert (W1 : wr s s1). { match type of H1 with ?m _ = _ => assert (Z : rel wr m) by rel_auto; exact (Z _ _ _ H1) end. }
  clear H1. bd H as o s2 H2. destruct (wr_the _ _ _ _ _ W1 TC) as (y & TC1). destruct (search_the _ _ _ _ _ _ (icli_wr _ _ W1 I) TC1 NI H2) as [-> ->]. clear H2.
  assert (NO : oheq (Some g) This_Server = false) by (apply Nat.eqb_neq; exact NG). rewrite NO, andb_false_r in H.
  destruct (wr_cli _ _ _ _ W1 AH) as (yh & AH1). destruct (wr_cli _ _ _ _ W1 AU) as (yu & AU1). destruct TC1 as ((_ & AG1) & _). rewrite lookup_assoc in AG1.
  destruct (squit_effect _ _ _ _ _ _ _ _ _ _ (tree_wr _ _ W1 T) (wf2_wrs _ _ W1 W) AH1 AU1 AG1 NG H) as [E1 E2]. split.
  - intro X. eapply wr_removed; [exact W1|]. apply E1. exact X.
  - intros X Y. eapply wr_trans; [exact W1|]. apply E2; auto.
Qed.
Theorem squit_line : forall s i h c text t why u d g e b s', live s -> undisturbed s -> client_of s i h c -> ordered_by s h c text "SQUIT" [t; why] u d ->
  the_client s t g e -> cl_id e <> [] -> g <> This_Server -> Parse_Request i text s = Ok b s' ->
  (cl_conn e <> None \/ cl_type d = T_SERVER -> removed g s s') /\ (cl_conn e = None -> cl_type d <> T_SERVER -> unchanged s s').
Proof.
  intros s i h c text t why u d g e b s' L U C O TC NI NG H.
  assert (Q : exists name pfx d1, assoc u (s_heap s) = Some d /\ d1 = d /\ IRC_SQUIT h (mkReq pfx name [t; why]) (set_s_wcounter 0 s) = Ok b s' /\
   (cl_type c = T_USER /\ In "o"%char (cl_modes c) /\ pfx = None /\ u = h \/
   cl_type c = T_SERVER /\ (exists p, pfx = Some p /\ the_client s p u d) /\ cl_id d <> [] /\
   (cl_type d = T_SERVER \/ cl_type d <> T_SERVER /\ In "o"%char (cl_modes d) /\ cf_allowremoteoper (s_conf s) = true))).
  { assert (AH : assoc h (s_heap s) = Some c) by (destruct C as [_ A]; rewrite lookup_assoc in A; exact A).
    destruct O as [(TU & OP & OR & -> & ->)|(TS & (p & name & P & N & TP) & SC & NX & NU & Q)].
    - destruct (run_plain s i h c text "SQUIT" [t; why] (mkCommand "SQUIT" IRC_SQUIT US 2 (Some 2) 0) b s') as (name & SN & H1); auto; [congruence|rewrite TU; reflexivity|intros m E; cbn in E; injection E as <-; cbn; lia|]. exists name, None, c. auto 10.
    - pose proof (run_link s i h c text "SQUIT" [t; why] u d p name (mkCommand "SQUIT" IRC_SQUIT US 2 (Some 2) 0) b s' L C TS P N TP SC NX NU eq_refl) as H1.
      exists name, (Some p), d. split; [destruct TP as [[_ A] _]; rewrite lookup_assoc in A; exact A|]. split; auto. split; [apply H1; [rewrite TS; reflexivity|reflexivity|cbn; lia|intros m E; cbn in E; injection E as <-; cbn; lia|exact H]|]. right. eauto 10. }
  destruct Q as (name & pfx & d1 & AU & _ & H1 & Q). clear d1. assert (AH : assoc h (s_heap s) = Some c) by (destruct C as [_ A]; rewrite lookup_assoc in A; exact A).
  assert (V : view s (set_s_wcounter 0 s)) by (split; reflexivity).
  assert (Wf : wf2 (set_s_wcounter 0 s)). { destruct (live_wf2 _ L) as [A [B0 C0]]. split; [|split; [exact B0|exact C0]]. destruct A; split; assumption. }
  assert (Q1 : (cl_type c = T_USER /\ In "o"%char (cl_modes c) /\ pfx = None /\ u = h \/
   cl_type c = T_SERVER /\ (exists p, pfx = Some p /\ the_client (set_s_wcounter 0 s) p u d) /\ cl_id d <> [] /\
   (cl_type d = T_SERVER \/ cl_type d <> T_SERVER /\ In "o"%char (cl_modes d) /\ cf_allowremoteoper (s_conf (set_s_wcounter 0 s)) = true))).
  { destruct Q as [Q|(Q1 & (p & Q2 & Q3) & Q4)]; [left; exact Q|right]. split; auto. split; auto. exists p. split; [exact Q2|exact Q3]. }
  destruct (squit_runs (set_s_wcounter 0 s) h c pfx name t why u d g e b s' (view_tree _ _ V (live_itree _ L U)) Wf (live_icli _ L) AH AU (view_the _ _ _ _ _ V TC) NI NG Q1 H1) as [R1 R2]. split.
  - intro X. eapply view_removed; [exact V|]. auto.
  - intros X Y. specialize (R2 X Y). apply wr_unchanged in R2. destruct R2. split; assumption.
Qed.
(** a connection which is lost between the commands: a write error, a time out, ... *)
Theorem chore_lost : forall s s' i cn, live s -> undisturbed s -> chore s s' -> assoc i (s_conns s) = Some cn -> assoc i (s_conns s') = None ->
  exists h c, known s h c /\ cl_conn c = Some i /\ removed h s s' /\ forall j, j <> i -> (assoc j (s_conns s') = None <-> assoc j (s_conns s) = None).
Proof.
  intros s s' i cn L U H A B0.
  assert (NO : fconn s s' -> False). { intros [_ K _]. specialize (K i). rewrite A, B0 in K. exact K. }
  destruct H as [j log fwd inform s s' H|j f s s' F H|j h s s' H|j b s s' H|s s' H].
  - destruct (live_wf2 _ L) as [W O]. destruct (assoc j (s_conns s)) as [cj|] eqn:AJ; [|destruct (Conn_Close_ok _ _ _ _ _ _ _ H W) as (x & X & _); congruence].
    destruct (wf2_close_removed _ _ _ _ _ _ _ (live_itree _ L U) (live_wf2 _ L) AJ H) as (h & c & E1 & E2 & E3 & E4 & E5 & _). destruct (Nat.eq_dec i j) as [-> |N]; [exists h, c; auto|]. apply E5 in B0; [congruence|exact N].
  - apply upd_con_ok in H. subst s'. unfold set_con in B0. cbn [s_conns set_s_conns] in B0. rewrite assoc_aupd, A in B0. destruct (Nat.eqb _ _); discriminate.
  - exfalso. unfold Throttle_Connection in H. bd H as c s1 H1. apply cli_ok in H1. destruct H1 as [_ ->].
    assert (Q : Conn_SetPenalty j 1 s = Ok tt s' \/ s' = s) by (destruct (cl_type c); try (destruct (memb "F" (cl_modes c))); first [left; exact H|right; apply ret_ok in H; apply H]).
    destruct Q as [Q| ->]; [|congruence]. unfold Conn_SetPenalty in Q. bd Q as m s1 H1. unfold cf in H1. rdgets H1. bd Q as t s1 H1. unfold now in H1. rdgets H1. apply upd_con_ok in Q. subst s'. unfold set_con in B0. cbn [s_conns set_s_conns] in B0. rewrite assoc_aupd, A in B0. destruct (Nat.eqb _ _); discriminate.
  - exfalso. apply NO. apply fconn_wr. match type of H with ?m _ = _ => assert (Q : rel wr m) by rel_auto; exact (Q _ _ _ H) end.
  - exfalso. assert (Q : s_conns s' = s_conns s).
    { unfold Class_Expire in H. bd H as u s1 H1. assert (K : forall c nm a v a', Class_Expire_one c nm a = Ok v a' -> s_conns a' = s_conns a).
      { intros c nm a v a' HH. unfold Class_Expire_one in HH. bd HH as l a1 K1. unfold class_list in K1. rdgets K1. bd HH as t a1 K1. unfold now in K1. rdgets K1. destruct (Lists_Expire _ _) as [kp dl]. unfold set_class in HH. apply modify_ok in HH. subst a'. destruct c; reflexivity. }
      rewrite (K _ _ _ _ _ H), (K _ _ _ _ _ H1). reflexivity. }
    congruence.
Qed.
