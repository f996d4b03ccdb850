(** Who may change what on a channel: TOPIC (C33). *)
From Coq Require Import List Ascii String ZArith NArith Bool Lia Arith.
From Coq Require Import Relations RelationClasses.
From Verif Require Import Bytes Match MatchSpec MatchProofs Lists Hash ParseReq State Messages Monad Core Write Info Chan Mode Msg Login Oper Server Dispatch Conn.
From Verif Require Import Rel RelWrite RelInfo RelBase RelChan RelSrv RelInit RelKey RelCmd RelComp WF RelGone Frame Tree Inv1 Inv2 Inv4 Spec Observ Unch HandOper HandPrefix HandLine Frames Live Attrib HandGain.
Import ListNotations.
Local Open Scope m_scope.

(** ---- questions about the state ---- *)
Lemma strchr0_In : forall m l, strchr0 m l = true -> m <> NUL -> In m l.
Proof.
  intros m l H N. unfold strchr0 in H. apply orb_true_iff in H. destruct H as [H|H]; [apply Ascii.eqb_eq in H; contradiction|].
  unfold memb in H. apply existsb_exists in H. destruct H as (x & I & E). apply Ascii.eqb_eq in E. subst. auto.
Qed.
Lemma memb_In : forall m l, memb m l = true <-> In m l.
Proof.
  intros m l. unfold memb. rewrite existsb_exists. split.
  - intros (x & I & E). apply Ascii.eqb_eq in E. subst. auto.
  - intro I. exists m. split; auto. apply Ascii.eqb_refl.
Qed.
Lemma HasMode_ok : forall h m s b s', Client_HasMode h m s = Ok b s' -> s' = s /\ exists c, assoc h (s_heap s) = Some c /\ b = strchr0 m (cl_modes c).
Proof. intros h m s b s' H. unfold Client_HasMode in H. bd H as c s1 H1. apply cli_ok in H1. destruct H1 as [H1 ->]. apply ret_ok in H. destruct H as [-> ->]. eauto. Qed.
Lemma ChHasMode_ok : forall h m s b s', Channel_HasMode h m s = Ok b s' -> s' = s /\ exists c, assoc h (s_chans s) = Some c /\ b = strchr0 m (ch_modes c).
Proof. intros h m s b s' H. unfold Channel_HasMode in H. bd H as c s1 H1. apply chan_ok in H1. destruct H1 as [H1 ->]. apply ret_ok in H. destruct H as [-> ->]. eauto. Qed.
Lemma IsMemberOf_on : forall ch h s b s', Channel_IsMemberOf ch h s = Ok b s' -> s' = s /\ (b = true <-> is_on s h ch).
Proof.
  intros ch h s b s' H. apply Channel_IsMemberOf_ok in H. destruct H as [-> ->]. split; auto. split.
  - destruct (find _ _) as [m|] eqn:F; [|discriminate]. intros _. apply find_some in F. destruct F as [F1 F2]. unfold is_mb, heq in F2. apply andb_true_iff in F2. destruct F2 as [F2 F3].
    apply Nat.eqb_eq in F2, F3. exists m. auto.
  - intros (m & I & E1 & E2). destruct (find _ _) eqn:F; auto. apply (find_none _ _ F) in I. unfold is_mb, heq in I. subst. rewrite !Nat.eqb_refl in I. discriminate.
Qed.
Lemma UserHasMode_priv : forall ch h x s b s', Channel_UserHasMode ch h x s = Ok b s' -> s' = s /\ (b = true -> has_priv s h ch x).
Proof.
  intros ch h x s b s' H. unfold Channel_UserHasMode, Channel_UserModes in H. bd H as ms s1 H1. bd H1 as o s2 H2. unfold Get_Cl2Chan in H2. rdgets H2.
  bd H1 as m s2 H2. apply nonnull_ok in H2. destruct H2 as [F ->]. apply ret_ok in H1. destruct H1 as [-> ->]. apply ret_ok in H. destruct H as [-> ->]. split; auto.
  intro K. apply memb_In in K. apply find_some in F. destruct F as [F1 F2]. unfold is_mb, heq in F2. apply andb_true_iff in F2. destruct F2 as [F2 F3]. apply Nat.eqb_eq in F2, F3. exists m. auto.
Qed.
Lemma ChSearch_ok : forall name s o s', wf s -> Channel_Search name s = Ok o s' -> s' = s /\ match o with Some ch => exists k, assoc ch (s_chans s) = Some k /\ same_name name (ch_name k) | None => True end.
Proof.
  intros name s o s' W H. unfold Channel_Search in H. rdgets H. split; auto. destruct (find _ _) as [[ch k]|] eqn:F; cbn [option_map fst]; auto. apply find_some in F. destruct F as [F1 F2].
  exists k. split; [apply In_assoc; auto; apply (wf_chans _ W)|]. unfold chan_is in F2. apply andb_true_iff in F2. destruct F2 as [_ F2]. apply same_name_iff. exact F2.
Qed.
Lemma wr_chans : forall s s', wr s s' -> s_chans s' = s_chans s /\ s_members s' = s_members s.
Proof. intros s s' W. destruct (wr_same _ _ W). auto. Qed.

(** ---- TOPIC ---- *)
Definition same_topic (k k' : channel) : Prop := ch_topic k' = ch_topic k.
#[export] Instance same_topic_KR : KR same_topic. Proof. split; unfold same_topic; congruence. Qed.
Ltac ksimple := let k := fresh in let k' := fresh in let H := fresh in intros k k' H; inversion H; subst; try reflexivity.
#[export] Instance same_topic_chadd : KS L_chadd same_topic. Proof. ksimple. Qed.
#[export] Instance same_topic_chdel : KS L_chdel same_topic. Proof. ksimple. Qed.
#[export] Instance same_topic_setmodes : KS L_setmodes same_topic. Proof. ksimple. Qed.
#[export] Instance same_topic_key : KS L_key same_topic. Proof. ksimple. Qed.
#[export] Instance same_topic_limit : KS L_limit same_topic. Proof. ksimple. Qed.
#[export] Instance same_topic_keyfile : KS L_keyfile same_topic. Proof. ksimple. Qed.
#[export] Instance same_topic_lists : KS L_lists same_topic. Proof. ksimple. match goal with H : lop_chan _ _ |- _ => inversion H; reflexivity end. Qed.
Lemma others_topic : forall s0, others (also wf (byC same_topic s0)) ["TOPIC"; "CHANINFO"]%string.
Proof. intro s0. others_tac. Qed.
Lemma SetTopic_ok : forall ch o t s u s' x k k', Channel_SetTopic ch o t s = Ok u s' -> assoc x (s_chans s) = Some k -> assoc x (s_chans s') = Some k' ->
  ch_topic k' = ch_topic k \/ (x = ch /\ (ch_topic k' = t \/ (COMMAND_LEN <= List.length t /\ ch_topic k' = []))).
Proof.
  intros ch o t s u s' x k k' H A A'. unfold Channel_SetTopic in H. bd H as c s1 H1. apply chan_ok in H1. destruct H1 as [H1 ->]. bd H as n s1 H2. same H2.
  bd H as v s1 H2. bd H as who s2 H3. same H3. apply upd_chan_ok in H. destruct H as (c2 & Hc2 & ->). cbn [s_chans set_s_chans] in A'. rewrite assoc_aupd in A'.
  assert (E : forall k1, assoc x (s_chans s1) = Some k1 -> ch_topic k1 = ch_topic k \/ (x = ch /\ (ch_topic k1 = t \/ (COMMAND_LEN <= List.length t /\ ch_topic k1 = [])))).
  { intros k1 A1. destruct (_ <? _) eqn:L in H2.
    - apply upd_chan_ok in H2. destruct H2 as (c3 & Hc3 & ->). cbn [s_chans set_s_chans] in A1. rewrite assoc_aupd in A1. destruct (Nat.eqb_spec ch x); [|left; congruence].
      subst x. rewrite A in A1. injection A1 as <-. right. auto.
    - apply Nat.ltb_ge in L. unfold whenM in H2. destruct (_ <? _) in H2; [|apply ret_ok in H2; destruct H2 as [_ ->]; left; congruence].
      apply upd_chan_ok in H2. destruct H2 as (c3 & Hc3 & ->). cbn [s_chans set_s_chans] in A1. rewrite assoc_aupd in A1. destruct (Nat.eqb_spec ch x); [|left; congruence].
      subst x. rewrite A in A1. injection A1 as <-. right. split; auto. }
  destruct (Nat.eqb_spec ch x); [|auto]. subst x. destruct (assoc ch (s_chans s1)) as [k1|]; [|discriminate]. injection A' as <-. cbn [ch_topic set_ch_topic_time set_ch_topic_who]. auto.
Qed.
Lemma TOPIC_sets : forall h req s b s' c, wf s -> assoc h (s_heap s) = Some c -> cl_type c <> T_SERVER -> IRC_TOPIC h req s = Ok b s' ->
  forall x k k', assoc x (s_chans s) = Some k -> assoc x (s_chans s') = Some k' -> ch_topic k' <> ch_topic k ->
  same_name (arg req 0) (ch_name k) /\ argc req <> 1 /\ may_set_topic s h c x k /\ (ch_topic k' = arg req 1 \/ (COMMAND_LEN <= List.length (arg req 1) /\ ch_topic k' = [])).
Proof.
  intros h req s b s' c W A T H x k k' K K' N. unfold IRC_TOPIC, with_sender in H. bd H as sv s1 H1. apply is_type_ok in H1. destruct H1 as (-> & c1 & A1 & ->). rewrite A in A1. injection A1 as <-.
  destruct (ctype_eqb (cl_type c) T_SERVER) eqn:Q. { apply ctype_eqb_eq in Q. contradiction. }
  assert (NO : wr s s' -> False). { intro X. destruct (wr_chans _ _ X) as [E _]. rewrite E, K in K'. congruence. }
  bd H as o s1 H1. destruct (ChSearch_ok _ _ _ _ W H1) as [-> S]. clear H1. destruct o as [ch|]; [|exfalso; apply NO; xlast H]. destruct S as (kc & S1 & S2).
  bd H as sv s1 H1. apply is_type_ok in H1. destruct H1 as (-> & c1 & A1 & ->). rewrite A in A1. injection A1 as <-. rewrite Q in H.
  bd H as power s1 H1. apply HasMode_ok in H1. destruct H1 as (-> & c1 & A1 & ->). rewrite A in A1. injection A1 as <-.
  bd H as ocm s1 H1. unfold cf in H1. rdgets H1. bd H as mem s1 H1. apply IsMemberOf_on in H1. destruct H1 as [-> M].
  destruct (negb false && negb mem && negb (cf_opercanmode (s_conf s) && strchr0 "o" (cl_modes c))) eqn:D1; [exfalso; apply NO; xlast H|].
  destruct (argc req =? 1) eqn:D2; [exfalso; apply NO; xlast H|]. apply Nat.eqb_neq in D2.
  bd H as t s1 H1. apply ChHasMode_ok in H1. destruct H1 as (-> & kc' & S3 & ->). rewrite S1 in S3. injection S3 as <-.
  bd H as deny s1 H1.
  assert (s1 = s /\ (deny = false -> ~ In "t"%char (ch_modes kc) \/ In "o"%char (cl_modes c) \/ half_op s h ch)) as [-> DN].
  { destruct (strchr0 "t" (ch_modes kc)) eqn:Ht; cbn [andb] in H1.
    2: { apply ret_ok in H1. destruct H1 as [-> ->]. split; auto. intros _. left. intro I. unfold strchr0 in Ht. apply memb_In in I. rewrite I in Ht. cbn in Ht. discriminate. }
    destruct (strchr0 "o" (cl_modes c)) eqn:Ho; cbn [negb] in H1.
    { apply ret_ok in H1. destruct H1 as [-> ->]. split; auto. intros _. right. left. apply strchr0_In in Ho; auto. discriminate. }
    unfold notM, orM in H1. bd H1 as y s2 H2. apply ret_ok in H1. destruct H1 as [-> ->].
    assert (s2 = s /\ (y = true -> half_op s h ch)) as [-> HY].
    { bd H2 as y1 s3 H3. apply UserHasMode_priv in H3. destruct H3 as [-> P1]. destruct y1. { apply ret_ok in H2. destruct H2 as [-> ->]. split; auto. exists "h"%char. split; [cbn; auto|auto]. }
      bd H2 as y1 s3 H3. apply UserHasMode_priv in H3. destruct H3 as [-> P2]. destruct y1. { apply ret_ok in H2. destruct H2 as [-> ->]. split; auto. exists "o"%char. split; [cbn; auto|auto]. }
      bd H2 as y1 s3 H3. apply UserHasMode_priv in H3. destruct H3 as [-> P3]. destruct y1. { apply ret_ok in H2. destruct H2 as [-> ->]. split; auto. exists "a"%char. split; [cbn; auto|auto]. }
      apply UserHasMode_priv in H2. destruct H2 as [-> P4]. split; auto. intros ->. exists "q"%char. split; [cbn; auto|auto]. }
    split; auto. intro E. apply negb_false_iff in E. auto. }
  destruct deny; [exfalso; apply NO; xlast H|]. specialize (DN eq_refl).
  try clear H1. bd H as osm s1 H1. unfold cf in H1. rdgets H1. cbv zeta in H. bd H as loc s1 H1. same H1. bd H as u1 s1 H1. assert (W1 : wr s s1) by xlast H1. clear H1.
  bd H as old s2 H1. same H1. bd H as u2 s2 H1. assert (W2 : wr s1 s2) by xlast H1. clear H1. bd H as u3 s3 H3. bd H as usr s4 H4. same H4. assert (W3 : wr s3 s') by xlast H.
  destruct (wr_chans _ _ W1) as [E1 _], (wr_chans _ _ W2) as [E2 _], (wr_chans _ _ W3) as [E3 _]. rewrite E3 in K'.
  destruct (SetTopic_ok _ _ _ _ _ _ x k k' H3) as [Z|[-> Z]]; [congruence|exact K'|contradiction|]. rewrite S1 in K. injection K as <-. split; auto. split; auto. split; auto.
  unfold may_set_topic. cbn [negb andb] in D1. destruct mem; cbn [negb andb] in D1.
  - right. split; [apply M; reflexivity|exact DN].
  - left. apply negb_false_iff in D1. apply andb_true_iff in D1. destruct D1 as [D3 D4]. split; auto. apply strchr0_In in D4; auto. discriminate.
Qed.

(** ---- over an event ---- *)
#[export] Instance anyk_KR : KR (fun _ _ => True). Proof. split; auto. Qed.
#[export] Instance anyk_KS : forall l, KS l (fun _ _ => True). Proof. intros l c c' _. exact I. Qed.
Lemma action_anyk : forall s s', action s s' -> wf s -> byC (fun _ _ => True) s s'.
Proof. intros s s' A W. apply (action_rel (X := also wf (byC (fun _ _ => True) s))) in A. apply A; auto. apply byC_refl. Qed.
Lemma wf_chlt : forall s ch k, wf s -> assoc ch (s_chans s) = Some k -> ch < s_chnext s.
Proof. intros s h c W A. apply (wf_chnext _ W). cbn. change h with (fst (h, c)). apply in_map. apply assoc_In. exact A. Qed.
Lemma chan_event : forall (P : channel -> Prop) (R : channel -> channel -> Prop), KR R -> (forall k, {P k} + {~ P k}) -> (forall k k', R k k' -> P k' -> P k) ->
  (forall s0 s s', chore s s' -> also wf (byC R s0) s s') -> (forall s0 e s s', silent e = true -> step e s = Ok tt s' -> also wf (byC R s0) s s') ->
  forall e s s' ch k k', live s -> undisturbed s' -> step e s = Ok tt s' -> exists_chan s ch k -> ~ P k -> exists_chan s' ch k' -> P k' ->
  exists i h c text b s1 s2 k1 k2, live s1 /\ undisturbed s1 /\ actions s s1 /\ client_of s1 i h c /\ Parse_Request i text s1 = Ok b s2 /\ actions s2 s' /\
    exists_chan s1 ch k1 /\ ~ P k1 /\ exists_chan s2 ch k2 /\ P k2.
Proof.
  intros P R KRR D RP C1 C2 e s s' ch k k' L U H K N K' Y. unfold exists_chan in *. rewrite lookup_assoc in K, K'. pose proof (wf_chlt _ _ _ (live_wf _ L) K) as Lt.
  set (Q := fun s => s_chnext s <= ch \/ exists k, assoc ch (s_chans s) = Some k /\ P k).
  assert (NQ : forall s s', live s -> also wf (byC R s) s s' -> ~ Q s -> ~ Q s').
  { intros x x' Lx F Nx [Y1|(d' & J' & O')].
    - destruct (F (live_wf _ Lx)) as [_ F1]. destruct (F1 byC_refl) as (F2 & _). apply Nx. left. lia.
    - destruct (F (live_wf _ Lx)) as [_ F1]. destruct (F1 byC_refl) as (F2 & F3). destruct (F3 ch d') as (d0 & A0 & G); auto. { destruct (le_dec (s_chnext x) ch); [exfalso; apply Nx; left; auto|lia]. }
      apply Nx. right. eauto. }
  destruct (by_a_line Q) with (e := e) (s := s) (s' := s') as (i & h & c & text & b & s1 & s2 & L1 & U1 & A1 & C & PR & A2 & N1 & Y1); auto.
  - intro x. unfold Q. destruct (le_dec (s_chnext x) ch); [left; auto|]. destruct (assoc ch (s_chans x)) as [z|]; [|right; intros [|(? & ? & _)]; [auto|discriminate]].
    destruct (D z); [left; eauto|right; intros [|(? & E & ?)]; [auto|congruence]].
  - intros x x' Lx Cx. apply NQ; auto.
  - intros ev x x' Lx Sx Cx. apply NQ; auto. eapply C2; eauto.
  - intros [Q1|(z & Q1 & Q2)]; [lia|congruence].
  - right. eauto.
  - pose proof (action_anyk _ _ (A_line _ _ _ _ _ PR) (live_wf _ L1)) as (F1 & F2). destruct Y1 as [Y1|(k2 & K2 & P2)]; [exfalso; apply N1; left; lia|].
    destruct (F2 ch k2) as (k1 & K1 & _); auto. { destruct (le_dec (s_chnext s1) ch); [exfalso; apply N1; left; auto|lia]. }
    exists i, h, c, text, b, s1, s2, k1, k2. rewrite !lookup_assoc. repeat (split; [assumption|]). split; [intro Pk; apply N1; right; eauto|]. auto.
Qed.
(** ---- the topic ---- *)
Lemma cmd_TOPIC : forall cmd, In cmd My_Commands -> cm_name cmd = "TOPIC"%string -> cmd = mkCommand "TOPIC" IRC_TOPIC US 1 (Some 2) 1.
Proof. intros cmd I E. which_cmd I E. Qed.
Lemma cmd_CHANINFO : forall cmd, In cmd My_Commands -> cm_name cmd = "CHANINFO"%string -> cmd = mkCommand "CHANINFO" IRC_CHANINFO US_S 0 None 0.
Proof. intros cmd I E. which_cmd I E. Qed.
Lemma topic_line : forall s i h c text b s', live s -> client_of s i h c -> cl_type c <> T_SERVER -> Parse_Request i text s = Ok b s' ->
  forall ch k k', exists_chan s ch k -> exists_chan s' ch k' -> ch_topic k' <> ch_topic k ->
  exists name t, says text "TOPIC" [name; t] /\ same_name name (ch_name k) /\ may_set_topic s h c ch k /\ (List.length t <= 512 -> ch_topic k' = t).
Proof.
  intros s i h c text b s' L C T H ch k k' J J' N. unfold exists_chan in *. rewrite lookup_assoc in J, J'. pose proof (live_wf _ L) as W.
  assert (F : also wf (byC same_topic s) s s' -> False).
  { intro F. destruct (F W) as [_ F1]. destruct (F1 byC_refl) as (_ & F2). destruct (F2 ch k') as (d0 & A0 & G); auto. { eapply wf_chlt; eauto. } rewrite J in A0. injection A0 as <-. auto. }
  destruct (line_cases _ _ _ _ _ _ _ C H) as [A|[[Q (req & HN)]|(cmd & req & s1 & R)]].
  - destruct F. eapply answered_X; [exact _..|exact A].
  - destruct F. eapply (Handle_Numeric_relp (X := also wf (byC same_topic s))); [|exact HN]. destruct C as [_ C]. rewrite lookup_assoc in C. exists c. auto.
  - destruct (cr_prep _ _ _ _ _ _ _ _ _ _ R) as (s2 & W2 & E2).
    pose proof (prepared_X (also wf (byC same_topic s)) _ _ _ _ _ (cr_prep _ _ _ _ _ _ _ _ _ _ R)) as P.
    destruct (existsb (String.eqb (cm_name cmd)) ["TOPIC"; "CHANINFO"]%string) eqn:E.
    + pose proof C as [_ C2]. rewrite lookup_assoc in C2. destruct (wr_cli _ _ _ _ W2 C2) as (x & C3). assert (C4 : assoc h (s_heap s1) = Some (set_cl_cloaked x c)) by (subst s1; exact C3).
      cbn [existsb] in E. rewrite !orb_true_iff in E. destruct E as [E|[E|E]]; [| |discriminate E]; apply String.eqb_eq in E; pose proof (cr_run _ _ _ _ _ _ _ _ _ _ R) as RUN.
      * pose proof (cmd_TOPIC _ (cr_in _ _ _ _ _ _ _ _ _ _ R) E) as EC. rewrite EC in RUN. cbn [cm_fun] in RUN.
        destruct (wr_chans _ _ W2) as [E3 E4]. assert (E5 : s_chans s1 = s_chans s /\ s_members s1 = s_members s /\ s_conf s1 = s_conf s). { destruct (wr_same _ _ W2). subst s1. cbn. auto. }
        destruct E5 as (E5 & E6 & E7).
        destruct (TOPIC_sets _ _ _ _ _ _ (proj1 (P W)) C4 T RUN ch k k') as (S1 & S2 & S3 & S4); [congruence|exact J'|exact N|].
        destruct (cr_parse _ _ _ _ _ _ _ _ _ _ R) as (p & PL). pose proof (cr_min _ _ _ _ _ _ _ _ _ _ R) as MI. pose proof (cr_max _ _ _ _ _ _ _ _ _ _ R) as MA. rewrite EC in MI, MA. cbn in MI, MA. specialize (MA 2 eq_refl).
        unfold argc in *. unfold arg in *. destruct (rq_args req) as [|a0 [|a1 [|a2 r]]] eqn:RA; cbn in MI, MA, S1, S2, S4; try lia.
        exists a0, a1. split; [exists p, (rq_command req); split; auto; pose proof (cr_name _ _ _ _ _ _ _ _ _ _ R) as NM; rewrite E in NM; exact NM|]. split; auto. split.
        -- unfold may_set_topic, mighty, is_on, half_op, has_priv in *. rewrite E6, E7 in S3. exact S3.
        -- intro LE. destruct S4 as [S4|[S4 _]]; auto. unfold COMMAND_LEN in S4. lia.
      * exfalso. pose proof (cr_type _ _ _ _ _ _ _ _ _ _ R) as TY. rewrite (cmd_CHANINFO _ (cr_in _ _ _ _ _ _ _ _ _ _ R) E) in TY. cbn in TY. destruct (cl_type c); try discriminate TY. contradiction.
    + destruct F. transitivity s1; auto. eapply (others_use _ _ cmd); [apply others_topic|apply R|exact E|apply R|apply R].
Qed.
Lemma topic_event : forall e s s' ch k k', live s -> undisturbed s' -> step e s = Ok tt s' -> exists_chan s ch k -> exists_chan s' ch k' -> ch_topic k' <> ch_topic k ->
  exists i h c text b s1 s2 k1 k2, live s1 /\ actions s s1 /\ client_of s1 i h c /\ Parse_Request i text s1 = Ok b s2 /\ actions s2 s' /\
    exists_chan s1 ch k1 /\ exists_chan s2 ch k2 /\ ch_topic k1 = ch_topic k /\ ch_topic k2 <> ch_topic k /\
    (cl_type c = T_SERVER \/ exists name t, says text "TOPIC" [name; t] /\ same_name name (ch_name k1) /\ may_set_topic s1 h c ch k1 /\ (List.length t <= 512 -> ch_topic k2 = t)).
Proof.
  intros e s s' ch k k' L U H K K' N.
  destruct (chan_event (fun x => ch_topic x <> ch_topic k) same_topic _) with (e := e) (s := s) (s' := s') (ch := ch) (k := k) (k' := k') as (i & h & c & text & b & s1 & s2 & k1 & k2 & L1 & U1 & A1 & C & PR & A2 & K1 & N1 & K2 & N2); auto.
  - intro x. destruct (list_eq_dec ascii_dec (ch_topic x) (ch_topic k)); [right; auto|left; auto].
  - unfold same_topic. intros x y E1 E2. congruence.
  - intros s0 x x' Cx. apply chore_rel. exact Cx.
  - intros s0 ev x x' Sx. apply (step_rel_silent (X := also wf (byC same_topic s0)) ev Sx).
  - assert (E1 : ch_topic k1 = ch_topic k). { destruct (list_eq_dec ascii_dec (ch_topic k1) (ch_topic k)); auto. contradiction. }
    exists i, h, c, text, b, s1, s2, k1, k2. repeat (split; [assumption|]).
    destruct (ctype_eqb (cl_type c) T_SERVER) eqn:T. { left. apply ctype_eqb_eq; auto. } right. eapply topic_line; eauto; [intro E; rewrite E in T; discriminate T|congruence].
Qed.
