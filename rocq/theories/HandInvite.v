(** Invitations (C32): who adds entries to the invite list of a channel, who drops them, and what one
    JOIN command does to it. *)
From Coq Require Import List Ascii String ZArith NArith Bool Lia Arith.
From Coq Require Import Relations RelationClasses.
From Verif Require Import Bytes Match MatchSpec MatchProofs Lists ListsProofs Hash ParseReq State Messages Monad Core Write Info Chan Mode Msg Login Oper Server Dispatch Conn.
From Verif Require Import Rel RelWrite RelInfo RelBase RelChan RelSrv RelInit RelKey RelCmd RelComp WF RelGone Frame Tree Inv1 Inv2 Inv4 Spec Observ Unch HandOper HandPrefix HandLine Frames Live Attrib HandGain HandUser HandChan HandJoin HandKick SpecMore Output HandDo HandSend.
Import ListNotations.
Local Open Scope m_scope.

Definition inv_same (k k' : channel) : Prop := ch_invites k' = ch_invites k.
Definition perm_stay (k k' : channel) : Prop := forall e, In e (ch_invites k) -> le_once e = false -> exists e', In e' (ch_invites k') /\ le_mask e' = le_mask e /\ le_once e' = false.
Definition mask_stay (k k' : channel) : Prop := forall e, In e (ch_invites k) -> exists e', In e' (ch_invites k') /\ le_mask e' = le_mask e /\ le_once e' = le_once e.
Definition no_new (k k' : channel) : Prop := forall e, In e (ch_invites k') -> exists e0, In e0 (ch_invites k) /\ le_mask e0 = le_mask e /\ le_once e0 = le_once e.

#[export] Instance inv_same_KR : KR inv_same.
Proof. split; unfold inv_same; intros; congruence. Qed.
#[export] Instance perm_stay_KR : KR perm_stay.
Proof. split; [intros k e I O; eauto|]. intros a b c H1 H2 e I O. destruct (H1 e I O) as (e1 & I1 & M1 & O1). destruct (H2 e1 I1 O1) as (e2 & I2 & M2 & O2). exists e2. repeat split; congruence. Qed.
#[export] Instance mask_stay_KR : KR mask_stay.
Proof. split; [intros k e I; eauto|]. intros a b c H1 H2 e I. destruct (H1 e I) as (e1 & I1 & M1 & O1). destruct (H2 e1 I1) as (e2 & I2 & M2 & O2). exists e2. repeat split; congruence. Qed.
#[export] Instance no_new_KR : KR no_new.
Proof. split; [intros k e I; eauto|]. intros a b c H1 H2 e I. destruct (H2 e I) as (e1 & I1 & M1 & O1). destruct (H1 e1 I1) as (e2 & I2 & M2 & O2). exists e2. repeat split; congruence. Qed.
Lemma same_perm : forall k k', inv_same k k' -> perm_stay k k'. Proof. intros k k' E e I O. unfold inv_same in E. rewrite E. eauto. Qed.
Lemma same_stay : forall k k', inv_same k k' -> mask_stay k k'. Proof. intros k k' E e I. unfold inv_same in E. rewrite E. eauto. Qed.
Lemma same_new : forall k k', inv_same k k' -> no_new k k'. Proof. intros k k' E e I. unfold inv_same in E. rewrite E in I. eauto. Qed.
Lemma stay_perm : forall k k', mask_stay k k' -> perm_stay k k'. Proof. intros k k' E e I O. destruct (E e I) as (e' & A & M & K). exists e'. repeat split; congruence. Qed.

Ltac ksame := intros k k' H; inversion H; subst; first [reflexivity | match goal with J : ctopic _ _ |- _ => inversion J; subst; assumption | J : chk_chan _ _ |- _ => inversion J; subst; reflexivity end].
#[export] Instance is_topic : KS L_topic inv_same. Proof. ksame. Qed.
#[export] Instance is_key : KS L_key inv_same. Proof. ksame. Qed.
#[export] Instance is_limit : KS L_limit inv_same. Proof. ksame. Qed.
#[export] Instance is_keyfile : KS L_keyfile inv_same. Proof. ksame. Qed.
#[export] Instance is_chadd : KS L_chadd inv_same. Proof. ksame. Qed.
#[export] Instance is_chdel : KS L_chdel inv_same. Proof. ksame. Qed.
#[export] Instance is_setmodes : KS L_setmodes inv_same. Proof. ksame. Qed.
#[export] Instance is_check : KS L_check inv_same. Proof. ksame. Qed.
#[export] Instance ps_of_same : forall l, KS l inv_same -> KS l perm_stay | 20. Proof. intros l K k k' H. apply same_perm, K, H. Qed.
#[export] Instance ms_of_same : forall l, KS l inv_same -> KS l mask_stay | 20. Proof. intros l K k k' H. apply same_stay, K, H. Qed.
#[export] Instance nn_of_same : forall l, KS l inv_same -> KS l no_new | 20. Proof. intros l K k k' H. apply same_new, K, H. Qed.
Lemma Add_stay : forall l m t r o e, In e l -> exists e', In e' (Lists_Add l m t r o) /\ le_mask e' = le_mask e /\ le_once e' = le_once e.
Proof.
  intros l m t r o e I. unfold Lists_Add. destruct (Lists_CheckDupeMask l m); [|exists e; split; [right; auto|auto]].
  induction l as [|x l IH]; [destruct I|]. cbn [upd_first]. destruct I as [-> |I].
  - destruct (caseeq (le_mask e) m); eexists; (split; [left; reflexivity|]); auto.
  - destruct (caseeq (le_mask x) m); [exists e; split; [right; auto|auto]|]. destruct (IH I) as (e' & I' & E). exists e'. split; [right; auto|auto].
Qed.
#[export] Instance ms_addinv : KS L_addinv mask_stay.
Proof. intros k k' H. inversion H; subst. match goal with J : inv_chan _ _ |- _ => inversion J; subst end. intros e I. cbn [ch_invites set_ch_invites]. apply Add_stay; auto. Qed.
#[export] Instance ps_addinv : KS L_addinv perm_stay.
Proof. intros k k' H. apply stay_perm. apply ms_addinv; auto. Qed.
#[export] Instance ps_useinv : KS L_useinv perm_stay.
Proof.
  intros k k' H. inversion H; subst. match goal with J : use_chan _ _ |- _ => inversion J; subst end. intros e I O. cbn [ch_invites set_ch_invites]. exists e. split; auto.
  destruct (CheckReason_list (ch_invites k) a b) as [E|(h1 & x & h2 & E1 & E2 & E3)]; [rewrite E; auto|]. rewrite E2. rewrite E1 in I. apply in_app_iff in I. apply in_app_iff. destruct I as [I|[<- |I]]; auto.
  exfalso. destruct E3; congruence.
Qed.
#[export] Instance nn_useinv : KS L_useinv no_new.
Proof.
  intros k k' H. inversion H; subst. match goal with J : use_chan _ _ |- _ => inversion J; subst end. intros e I. cbn [ch_invites set_ch_invites] in I. exists e. split; auto.
  destruct (CheckReason_list (ch_invites k) a b) as [E|(h1 & x & h2 & E1 & E2 & E3)]; [rewrite E in I; auto|]. rewrite E2 in I. rewrite E1. apply in_app_iff in I. apply in_app_iff. destruct I; auto. right; right; auto.
Qed.
Definition LOGIN := ["NICK"; "USER"; "CAP"; "PONG"]%string.
Lemma others_perm : forall s0, others (also wf (byC perm_stay s0)) ("MODE"%string :: LOGIN).
Proof. intro s0. others_tac. Qed.
Lemma others_stay : forall s0, others (also wf (byC mask_stay s0)) ("MODE"%string :: "JOIN"%string :: LOGIN).
Proof. intro s0. others_tac. Qed.
Lemma others_news : forall s0, others (also wf (byC no_new s0)) ("MODE"%string :: "INVITE"%string :: LOGIN).
Proof. intro s0. others_tac. Qed.
Lemma uothers_perm : forall s0, uothers (also wf (byC perm_stay s0)) ["MODE"]%string.
Proof. intro s0. uothers_tac. Qed.
Lemma uothers_stay : forall s0, uothers (also wf (byC mask_stay s0)) ["MODE"; "JOIN"]%string.
Proof. intro s0. uothers_tac. Qed.
Lemma uothers_news : forall s0, uothers (also wf (byC no_new s0)) ["MODE"; "INVITE"]%string.
Proof. intro s0. uothers_tac. Qed.
Lemma run_says : forall s i h c text cmd req s1 b s' ns, command_run s i h c text cmd req s1 b s' -> existsb (String.eqb (cm_name cmd)) ns = true -> a_line_of text ns.
Proof.
  intros s i h c text cmd req s1 b s' ns R E. apply existsb_exists in E. destruct E as (n & I & E). apply String.eqb_eq in E. exists n, (rq_args req). split; auto.
  destruct (cr_parse _ _ _ _ _ _ _ _ _ _ R) as (p & P). exists p, (rq_command req). split; auto. rewrite <- E. apply R.
Qed.
Lemma by_line_of : forall (R : channel -> channel -> Prop) (KRR : KR R) ns un s s' (N : forall h req, relp (cfact h (fun c => cl_type c = T_SERVER \/ cl_type c = T_UNKNOWNSERVER)) (also wf (byC R s)) (Handle_Numeric h req)),
  others (also wf (byC R s)) ns -> uothers (also wf (byC R s)) un -> 
  forall (PC : PS L_close (also wf (byC R s))),
  live s -> forall i h c text b, client_of s i h c -> Parse_Request i text s = Ok b s' ->
  forall ch k k', exists_chan s ch k -> exists_chan s' ch k' -> R k k' \/ (a_line_of text ns /\ (cl_type c = T_USER -> a_line_of text un)).
Proof.
  intros R KRR ns un s s' N O UO PC L i h c text b C H ch k k' J J'. pose proof (live_wf _ L) as W. unfold exists_chan in *. rewrite lookup_assoc in J, J'.
  assert (F : also wf (byC R s) s s' -> R k k').
  { intro F. destruct (F W) as [_ F1]. destruct (F1 byC_refl) as (_ & F2). destruct (F2 ch k') as (d0 & A0 & G); auto. { eapply wf_chlt; eauto. } rewrite J in A0. injection A0 as <-. auto. }
  assert (UU : cl_type c = T_USER -> R k k' \/ a_line_of text un).
  { intro T. destruct (user_line _ _ _ _ _ _ _ _ _ _ _ _ _ UO C T H) as [X|(cmd & req & s1 & RR & E & X)]; auto. right. eapply run_says; eauto. }
  assert (K : R k k' \/ a_line_of text ns).
  { destruct (line_cases _ _ _ _ _ _ _ C H) as [A|[[Q (req & HN)]|(cmd & req & s1 & RR)]].
    - left. apply F. eapply answered_X; [exact _..|exact A].
    - left. apply F. eapply N; [|exact HN]. destruct C as [_ C]. rewrite lookup_assoc in C. exists c. auto.
    - destruct (existsb (String.eqb (cm_name cmd)) ns) eqn:E; [right; eapply run_says; eauto|left]. apply F.
      pose proof (prepared_X (also wf (byC R s)) _ _ _ _ _ (cr_prep _ _ _ _ _ _ _ _ _ _ RR)) as P. transitivity s1; auto.
      eapply others_use; [exact O|apply RR|exact E|apply RR|apply RR]. }
  destruct K as [K|K]; auto. destruct (ctype_eqb (cl_type c) T_USER) eqn:T.
  - apply ctype_eqb_eq in T. destruct (UU T); auto.
  - right. split; auto. intro T'. rewrite T' in T. discriminate T.
Qed.
Lemma chore_chan : forall (R : channel -> channel -> Prop) (KRR : KR R) s s' (C : also wf (byC R s) s s'), live s -> forall ch k k', exists_chan s ch k -> exists_chan s' ch k' -> R k k'.
Proof.
  intros R KRR s s' F L ch k k' J J'. pose proof (live_wf _ L) as W. unfold exists_chan in *. rewrite lookup_assoc in J, J'. destruct (F W) as [_ F1]. destruct (F1 byC_refl) as (_ & F2). destruct (F2 ch k') as (d0 & A0 & G); auto. { eapply wf_chlt; eauto. } rewrite J in A0. injection A0 as <-. auto.
Qed.

(** ---- one JOIN ---- *)
Lemma means_match : forall s c e, means s c e <-> le_match e (shown_mask s c) (full_mask c) = true.
Proof. intros s c e. unfold means, le_match. rewrite orb_true_iff. tauto. Qed.
Lemma not_means : forall s c e, ~ means s c e <-> le_match e (shown_mask s c) (full_mask c) = false.
Proof. intros s c e. rewrite means_match. destruct (le_match _ _ _); split; congruence. Qed.
Lemma Check_used : forall s c l, used_by s c l (snd (Lists_CheckReason l (shown_mask s c) (full_mask c))).
Proof.
  intros s c l. induction l as [|e l IH]; [left; split; auto; intros e []|]. cbn [Lists_CheckReason]. destruct (le_match e (shown_mask s c) (full_mask c)) eqn:M.
  - right. exists [], e, l. split; auto. split; [intros x []|]. split; [apply means_match; auto|]. cbn [snd app]. reflexivity.
  - destruct (Lists_CheckReason l (shown_mask s c) (full_mask c)) as [r l']. cbn [snd] in *. apply not_means in M. destruct IH as [[N ->]|(a & x & b & -> & N & Mx & ->)].
    + left. split; auto. intros y [<- |I]; auto.
    + right. exists (e :: a), x, b. split; auto. split; [intros y [<- |I]; auto|]. split; auto. destruct (le_once x); reflexivity.
Qed.
Lemma looks_means : forall s c s' c' e, looks s c s' c' -> (means s' c' e <-> means s c e).
Proof. intros s c s' c' e L. destruct (looks_mask _ _ _ _ L) as [E1 E2]. unfold means. rewrite E1, E2. reflexivity. Qed.
Lemma looks_used : forall s c s' c' l l', looks s c s' c' -> used_by s' c' l l' -> used_by s c l l'.
Proof.
  intros s c s' c' l l' L [[N ->]|(a & e & b & -> & N & M & ->)].
  - left. split; auto. intros e I X. apply (N e I). eapply looks_means; eauto.
  - right. exists a, e, b. split; auto. split; [intros x I X; apply (N x I); eapply looks_means; eauto|]. split; [apply (looks_means _ _ _ _ _ L); exact M|reflexivity].
Qed.
Lemma Invites_exact : forall ch h s b s' k c, assoc ch (s_chans s) = Some k -> assoc h (s_heap s) = Some c -> fits c ->
  Check_Invites ch h s = Ok b s' -> exists k', assoc ch (s_chans s') = Some k' /\ used_by s c (ch_invites k) (ch_invites k').
Proof.
  intros ch h s b s' k c A AC F H. unfold Check_Invites in H. bd H as r s1 H1. apply ret_ok in H. destruct H as [-> ->].
  unfold Check_List in H1. bd H1 as l s2 H2. bd H2 as k1 s3 H3. apply chan_ok in H3. destruct H3 as [H3 ->]. rewrite A in H3. injection H3 as <-. apply ret_ok in H2. destruct H2 as [-> ->].
  destruct (ch_invites k) as [|e l0] eqn:E.
  - apply ret_ok in H1. destruct H1 as [-> ->]. exists k. split; auto. rewrite E. left. split; auto.
  - rewrite <- E in *. bd H1 as mc s2 H2. destruct (MaskCloaked_shown _ _ _ _ _ AC F H2) as [W1 ->]. destruct (wr_looks _ _ W1 _ _ AC) as (c1 & AC1 & L1). bd H1 as m s3 H3. destruct (Mask_full _ _ _ _ _ AC1 (fits_looks _ _ _ _ L1 F) H3) as [-> ->].
    destruct (looks_mask _ _ _ _ L1) as [_ EM]. rewrite EM in H1. pose proof (Check_used s c (ch_invites k)) as U. destruct (Lists_CheckReason (ch_invites k) (shown_mask s c) (full_mask c)) as [r1 l'] eqn:R. bd H1 as u s3 H4. apply ret_ok in H1. destruct H1 as [-> ->].
    apply upd_chan_ok in H4. destruct H4 as (k2 & A2 & ->). rewrite (w_chans _ _ (wr_same _ _ W1)), A in A2. injection A2 as <-.
    exists (set_ch_invites l' k). split; [|exact U]. cbn [s_chans set_s_chans]. rewrite assoc_aupd, Nat.eqb_refl, (w_chans _ _ (wr_same _ _ W1)), A. reflexivity.
Qed.
(** everything else leaves the invitations alone *)
Definition IS (s s' : state) : Prop := forall ch k, assoc ch (s_chans s) = Some k -> exists k', assoc ch (s_chans s') = Some k' /\ ch_invites k' = ch_invites k.
#[local] Instance IS_po : PreOrder IS.
Proof. split; [intros s ch k A; eauto|]. intros a b c H1 H2 ch k A. destruct (H1 _ _ A) as (k1 & A1 & E1). destruct (H2 _ _ A1) as (k2 & A2 & E2). exists k2. split; congruence. Qed.
#[local] Instance IS_wr : WrSub IS.
Proof. intros s s' H ch k A. assert (W : wr s s') by (apply rt_step; auto). rewrite (w_chans _ _ (wr_same _ _ W)). eauto. Qed.
Lemma IS_set : forall ch f s, (forall k, ch_invites (f k) = ch_invites k) -> IS s (set_chan ch f s).
Proof. intros ch f s E x k A. unfold set_chan. cbn [s_chans set_s_chans]. rewrite assoc_aupd, A. destruct (Nat.eqb ch x); cbn; eauto. Qed.
#[local] Instance IS_check : PS L_check IS.
Proof. intros s s' H. inversion H; subst. match goal with J : chk_chan _ _ |- _ => inversion J as [a b E|a b E] end; intros x k A; unfold set_chan; cbn [s_chans set_s_chans]; rewrite assoc_aupd, A; (destruct (Nat.eqb_spec ch x) as [-> |]; cbn; [|eauto]); eexists; (split; [reflexivity|]); rewrite H0 in A; injection A as <-; rewrite <- E; reflexivity. Qed.
#[local] Instance IS_chadd : PS L_chadd IS.
Proof. intros s s' H. inversion H; subst. apply IS_set. reflexivity. Qed.
#[local] Instance IS_mbmode : PS L_mbmode IS.
Proof. intros s s' H. inversion H; subst. intros x k A. eauto. Qed.
#[local] Instance IS_addmb : PS L_addmb IS.
Proof. intros s s' H. inversion H; subst. apply addmb_eq in H1. destruct H1 as (c & cc & _ & _ & ->). intros x k A. exists k. split; auto. unfold if_odd. ifs; exact A. Qed.
Lemma allowed_used : forall h ch name key s b s' k c, NoDup (map fst (s_chans s)) -> assoc ch (s_chans s) = Some k -> assoc h (s_heap s) = Some c -> fits c -> ~ In "o"%char (cl_modes c) ->
  noonce (ch_bans k) -> noonce (ch_excepts k) ->
  join_allowed h ch name key s = Ok b s' -> exists k', assoc ch (s_chans s') = Some k' /\ used_by s c (ch_invites k) (ch_invites k').
Proof.
  intros h ch name key s b s' k c N A AC F NO NB NE H. unfold join_allowed in H. cbv zeta in H.
  bd H as op s1 H1. apply HasMode_ok in H1. destruct H1 as (-> & c1 & A1 & E1). rewrite AC in A1. injection A1 as <-. destruct op. { destruct NO. apply strchr0_In; [auto|discriminate]. }
  bd H as isb s1 H1. assert (I1 : IS s s1) by xlast H1. destruct (Bans_ok _ _ _ _ _ _ _ N A NB AC F H1) as [Q1 _]. destruct (qu_cli _ _ Q1 _ _ AC) as (c1 & AC1 & L1). destruct (I1 _ _ A) as (k1 & A1 & EI1). clear H1.
  destruct (quiet_ch _ _ _ _ Q1 A) as (k1' & A1' & K1). rewrite A1 in A1'. injection A1' as <-.
  bd H as ise s2 H2. assert (I2 : IS s1 s2) by xlast H2. destruct (Excepts_ok _ _ _ _ _ _ _ (quiet_nodup _ _ Q1 N) A1 ltac:(rewrite (kp_excepts _ _ K1); auto) AC1 (fits_looks _ _ _ _ L1 F) H2) as [Q2 _]. destruct (qu_cli _ _ Q2 _ _ AC1) as (c2 & AC2 & L2). destruct (I2 _ _ A1) as (k2 & A2 & EI2). clear H2.
  pose proof (looks_trans _ _ _ _ _ _ L1 L2) as L12.
  bd H as isi s3 H3. destruct (Invites_exact _ _ _ _ _ _ _ A2 AC2 (fits_looks _ _ _ _ L12 F) H3) as (k3 & A3 & U). clear H3. apply (looks_used _ _ _ _ _ _ L12) in U. rewrite EI2, EI1 in U.
  assert (I4 : IS s3 s') by xlast H. destruct (I4 _ _ A3) as (k4 & A4 & E4). exists k4. split; auto. rewrite E4. exact U.
Qed.
Lemma one_used : forall h name key s x s' c ch k, wf s -> ichan s -> assoc h (s_heap s) = Some c -> fits c -> cl_id c <> [] -> (forall t, key = Some t -> t <> []) -> ~ In "o"%char (cl_modes c) -> Channel_Search name s = Ok (Some ch) s -> assoc ch (s_chans s) = Some k ->
  ~ is_on s h ch -> room_to_join s h -> join_one h h name key s = Ok x s' -> exists k', assoc ch (s_chans s') = Some k' /\ used_by s c (ch_invites k) (ch_invites k').
Proof.
  intros h name key s x s' c ch k W IC A F NEI KN NO SE AK NI RM H. unfold join_one in H. bd H as srv s1 H1. apply is_type_ok in H1. destruct H1 as (-> & c1 & A1 & ->). rewrite A in A1. injection A1 as <-. rewrite (fi_type _ F) in H. cbn [ctype_eqb] in H.
  bd H as o s1 H1. rewrite SE in H1. injection H1 as <- <-. bd H as r s1 H1.
  assert (U : exists k', assoc ch (s_chans s1) = Some k' /\ used_by s c (ch_invites k) (ch_invites k')).
  { unfold join_check in H1. bd H1 as ty s2 H2. apply Client_Type_ok in H2. destruct H2 as (-> & c1 & A1 & ->). rewrite A in A1. injection A1 as <-. rewrite (fi_type _ F) in H1. cbn [ctype_eqb] in H1. cbv zeta in H1.
    bd H1 as pre s2 H2. apply IsMemberOf_on in H2. destruct H2 as [-> E]. destruct pre; [destruct NI; apply E; auto|].
    bd H1 as mj s2 H2. unfold cf in H2. rdgets H2. bd H1 as n s2 H2. unfold Channel_CountForUser in H2. rdgets H2. destruct ((0 <? _) && _)%Z eqn:EM in H1.
    { exfalso. apply andb_true_iff in EM. destruct EM as [M1 M2]. apply Z.ltb_lt in M1. apply Z.leb_le in M2. unfold room_to_join in RM. destruct RM as [RM|RM]; [lia|]. match goal with Q : (_ <= Z.of_nat ?a)%Z, P : (Z.of_nat ?b < _)%Z |- _ => change b with a in P; lia end. }
    bd H1 as q s2 H2. bd H2 as ok s3 H3. apply ret_ok in H2. destruct H2 as [-> ->]. destruct (kg_once _ _ _ (ic_good _ IC _ _ AK)) as [NB NE].
    destruct (allowed_used _ _ _ _ _ _ _ _ _ (wf_chans _ W) AK A F NO NB NE H3) as (k3 & A3 & U). clear H3. assert (I : IS s3 s1) by (destruct ok; xlast H1). destruct (I _ _ A3) as (k4 & A4 & E4). exists k4. split; auto. rewrite E4. auto. }
  destruct U as (k1 & A1 & U). assert (I : IS s1 s'); [|destruct (I _ _ A1) as (k2 & A2 & E2); exists k2; split; auto; rewrite E2; auto].
  clear - H SE W A1 H1 A F NO AK NI IC NEI KN. destruct r as [y|f]; [rdret H; reflexivity|].
  bd H as ok s3 H3. assert (I3 : IS s1 s3).
  { assert (Q : quiet s s1). { eapply join_check_ok in H1; eauto. apply H1. }
    unfold Channel_Join in H3. destruct (valid_chan name) eqn:V; cbn [negb] in H3; [|xlast H3]. bd H3 as o2 s4 H4. rewrite (search_quiet _ _ _ Q), SE in H4. injection H4 as <- <-. bd H3 as bb s4 H4. same H4. destruct bb; [rdret H3; reflexivity|]. bd H3 as u s5 H5. rdret H3. destruct u. apply Add_Client_ok in H5. destruct H5 as (c5 & k5 & _ & _ & ->). intros y ky Ay. exists ky. split; auto. unfold if_odd. ifs; exact Ay. }
  transitivity s3; auto. destruct (negb ok); [rdret H; reflexivity|]. bd H as ch' s4 H4. apply ret_ok in H4. destruct H4 as [-> ->]. xlast H.
Qed.

Lemma run_prepared : forall s i h c text n args cmd b s', client_of s i h c -> cl_type c <> T_SERVER -> orders s text n args ->
  find (fun c => String.eqb (cm_name c) n) My_Commands = Some cmd -> type_in (cl_type c) (cm_types cmd) = true ->
  cm_min cmd <= List.length args -> (forall m, cm_max cmd = Some m -> List.length args <= m) -> Parse_Request i text s = Ok b s' ->
  exists name s1, (prepared s s1 /\ view s s1) /\ same_name name (B n) /\ cm_fun cmd h (mkReq None name args) s1 = Ok b s'.
Proof.
  intros s i h c text n args cmd b s' C T [(name & P & N) SC] F TI MI MA H. unfold Parse_Request in H. cbv zeta in H. bd H as sc s1 H1. unfold cf in H1. rdgets H1.
  assert (NS : cf_scrubctcp (s_conf s) && ScrubCTCP (trim text) = false). { apply andb_false_iff. destruct (cf_scrubctcp (s_conf s)); [right|auto]. destruct (ScrubCTCP (trim text)) eqn:E; auto. exfalso. apply SC; auto. apply scrub_ctcp. exact E. }
  rewrite NS, P in H. bd H as v s1 H1. unfold Validate_Prefix in H1. bd H1 as o s2 H2. destruct (client_of_get _ _ _ _ _ _ C H2) as [-> ->]. clear H2.
  bd H1 as h' s2 H2. apply nonnull_ok in H2. destruct H2 as [E ->]. injection E as <-. bd H1 as t s2 H2. destruct (client_of_type _ _ _ _ _ _ C H2) as [-> ->]. clear H2.
  bd H1 as cn s2 H2. apply con_ok in H2. destruct H2 as [-> _]. cbn [rq_prefix] in H1. destruct (ctype_eqb (cl_type c) T_SERVER) eqn:TS; [apply ctype_eqb_eq in TS; contradiction|]. cbn [andb] in H1. apply ret_ok in H1. destruct H1 as [-> ->].
  apply (Handle_Request_cmd _ _ _ _ (mkReq None name args) _ _ _ _ C N F) in H. unfold run_command in H. rewrite TI in H. cbn [negb] in H. bd H as u s1 H1. unfold argc in H. cbn [rq_args] in H.
  assert (V : wr s s1). { assert (PE : (0 <= cm_penalty cmd)%Z) by (apply cmd_penalty; eapply find_some; exact F). xlast H1. }
  assert (VV : view s s1). { unfold whenM in H1. destruct (negb _) in H1; [destruct (SetPenalty_view _ _ _ _ _ H1) as (VV & _ & _); auto|]. apply ret_ok in H1. destruct H1 as [_ ->]. reflexivity. }
  replace ((List.length args <? cm_min cmd) || match cm_max cmd with Some m => m <? List.length args | None => false end) with false in H.
  2: { symmetry. apply orb_false_iff. split; [apply Nat.ltb_ge; exact MI|]. destruct (cm_max cmd) as [m|]; auto. apply Nat.ltb_ge. apply MA. reflexivity. }
  bd H as u2 s2 H2. apply modify_ok in H2. subst s2. exists name, (set_s_wcounter 0 s1). split; [|tauto]. split; [exists s1; auto|]. transitivity s1; [exact VV|]. split; reflexivity.
Qed.
Lemma join_uses : forall s i h c text args name b s' ch k, live s -> undisturbed s -> client_of s i h c -> cl_type c = T_USER -> ~ In "o"%char (cl_modes c) ->
  orders s text "JOIN" args -> (args = [name] \/ exists key, args = [name; key]) -> ~ In ","%char name -> name <> [] -> args <> [B "0"] -> the_channel s name ch k -> ~ is_on s h ch -> room_to_join s h ->
  Parse_Request i text s = Ok b s' -> exists k' c', exists_chan s' ch k' /\ lookup h (s_heap s') = Some c' /\ used_by s c (ch_invites k) (ch_invites k') /\ (forall e, means s' c' e <-> means s c e).
Proof.
  intros s i h c text args name b s' ch k L U C T NO OR AR NC NE N0 TC NI RM H. pose proof (live_wf _ L) as W.
  assert (T' : cl_type c <> T_SERVER) by congruence.
  destruct (run_prepared s i h c text "JOIN"%string args (mkCommand "JOIN" IRC_JOIN US 1 (Some 2) 0) b s') as (nm & s1 & [PR _] & SN & RUN); auto.
  { rewrite T. reflexivity. } { cbn. destruct AR as [-> |(ky & ->)]; cbn; lia. } { intros m M. injection M as <-. destruct AR as [-> |(ky & ->)]; cbn; lia. }
  pose proof (prepared_quiet _ _ PR) as Q. destruct (prepared_X (also wf ichan) _ _ _ _ _ PR W) as [W1 IC1]. specialize (IC1 (live_ichan _ L)).
  destruct (user_fits _ _ _ _ L U C T) as [FI NEI]. pose proof C as [_ C2]. rewrite lookup_assoc in C2. destruct (qu_cli _ _ Q _ _ C2) as (c1 & A1 & L1). destruct (looks_modes _ _ _ _ L1) as (M1 & M2 & _).
  assert (CH1 : s_chans s1 = s_chans s /\ s_members s1 = s_members s /\ s_conf s1 = s_conf s). { destruct PR as (s2 & Wr & ->). destruct (wr_same _ _ Wr). cbn. auto. } destruct CH1 as (CH1 & MB1 & CF1).
  pose proof TC as (EC & _). unfold exists_chan in EC. rewrite lookup_assoc in EC.
  assert (SE : Channel_Search name s1 = Ok (Some ch) s1). { unfold Channel_Search, gets. rewrite CH1. destruct (search_one s name ch k (option_map fst (find (fun p => chan_is name (snd p)) (s_chans s))) s L TC eq_refl) as [_ ->]. reflexivity. }
  cbn [cm_fun] in RUN. unfold IRC_JOIN, with_sender in RUN. bd RUN as srv s2 H2. apply is_type_ok in H2. destruct H2 as (-> & c3 & A3 & ->). rewrite A1 in A3. injection A3 as <-. rewrite (fi_type _ (fits_looks _ _ _ _ L1 FI)) in RUN. cbn [ctype_eqb] in RUN.
  unfold arg, argc in RUN. cbn [rq_args] in RUN.
  assert (N00 : (List.length args =? 1) && beq (nth 0 args []) (B "0") = false).
  { apply andb_false_iff. destruct AR as [-> |(ky & ->)]; [right|left; reflexivity]. cbn [nth]. destruct (beq name (B "0")) eqn:E; auto. apply beq_eq in E. subst name. exfalso. apply N0. reflexivity. }
  rewrite N00 in RUN. assert (EN : nth 0 args [] = name) by (destruct AR as [-> |(ky & ->)]; reflexivity). rewrite EN in RUN. rewrite (strtok_one "," name NC NE) in RUN. set (keys := if 1 <? _ then _ else _) in RUN.
  assert (KN : forall t, hd_error keys = Some t -> t <> []). { intros t E. unfold keys in E. destruct (1 <? _); [|discriminate E]. apply (strtok_ne "," (nth 1 args []) []). unfold strtok in E. destruct (strtok_aux "," (nth 1 args []) []); [discriminate E|]. injection E as ->. left. auto. }
  cbn [join_loop] in RUN. bd RUN as x s2 H2. assert (s2 = s') as <- by (destruct x; rdret RUN; reflexivity).
  assert (OU : exists k', assoc ch (s_chans s2) = Some k' /\ used_by s1 c1 (ch_invites k) (ch_invites k')).
  { eapply (one_used h name (hd_error keys) s1 x s2 c1 ch k); eauto; try congruence.
    - exact (fits_looks _ _ _ _ L1 FI).
    - intros (m & I & E1 & E2). apply NI. exists m. rewrite MB1 in I. auto.
    - unfold room_to_join in *. rewrite MB1, CF1. exact RM. }
  destruct OU as (k' & A' & US').
  assert (RD : round h c1 name (hd_error keys) s1 s2) by (eapply join_one_ok; eauto; [exact (fits_looks _ _ _ _ L1 FI)|congruence]).
  destruct (fw_cli _ _ _ (fw_round _ _ _ _ _ _ _ (fw_refl h s1) RD) _ _ A1) as (c' & AC' & L'). pose proof (looks_trans _ _ _ _ _ _ L1 L') as LL.
  exists k', c'. split; [unfold exists_chan; rewrite lookup_assoc; auto|]. split.
  - rewrite lookup_assoc. exact AC'.
  - split; [exact (looks_used _ _ _ _ _ _ L1 US')|]. intro e. apply (looks_means _ _ _ _ _ LL).
Qed.

(** ---- INVITE ---- *)
Lemma Add_invited : forall l m t r, List.length m < MASK_LEN -> invited m l (Lists_Add l m t r true).
Proof.
  intros l m t r LM. unfold Lists_Add. destruct (Lists_CheckDupeMask l m) as [e|] eqn:E.
  - left. unfold Lists_CheckDupeMask in E. pose proof (find_some _ _ E) as [I Q]. split; [exists e; split; auto; apply same_name_iff; exact Q|].
    clear. induction l as [|x l IH]; [reflexivity|]. cbn [upd_first]. destruct (caseeq (le_mask x) m); cbn [map]; [reflexivity|]. rewrite IH. reflexivity.
  - right. unfold Lists_CheckDupeMask in E. split; [|eexists; split; [reflexivity|]; unfold kind; cbn [le_mask le_once]; rewrite strlcpy_short; auto; unfold MASK_LEN in *; lia].
    intros e I Q. pose proof (find_none _ _ E _ I) as N. apply same_name_iff in Q. cbv beta in N. congruence.
Qed.
Lemma shown_len : forall s c, fits c -> List.length (shown_mask s c) < MASK_LEN.
Proof.
  intros s c F. destruct F as [F1 F2 F3 F4 _]. unfold shown_mask. repeat (rewrite app_length || cbn [List.length]). unfold CLIENT_USER_LEN, CLIENT_HOST_LEN, MASK_LEN in *.
  assert (List.length (shown_host s c) < 64). { unfold shown_host. destruct (memb _ _); auto. destruct (cl_cloaked c) as [t|]; [exact F4|apply cloak_name_len]. } lia.
Qed.

Lemma half_ok : forall ch h s b s', wf s -> orM (Channel_UserHasMode ch h "q") (orM (Channel_UserHasMode ch h "a") (orM (Channel_UserHasMode ch h "o") (Channel_UserHasMode ch h "h"))) s = Ok b s' -> s' = s /\ (b = true <-> half_op s h ch).
Proof.
  intros ch h s b s' W H. unfold half_op. apply orM_ok in H. destruct H as (x & s1 & H1 & H). apply UserHasMode_iff in H1; auto. destruct H1 as (-> & _ & P1).
  destruct H as [(-> & -> & ->)|[-> H]]. { split; auto. split; auto. intros _. exists "q"%char. split; [cbn; auto|]. apply P1. auto. }
  apply orM_ok in H. destruct H as (x & s1 & H1 & H). apply UserHasMode_iff in H1; auto. destruct H1 as (-> & _ & P2).
  destruct H as [(-> & -> & ->)|[-> H]]. { split; auto. split; auto. intros _. exists "a"%char. split; [cbn; auto|]. apply P2. auto. }
  apply orM_ok in H. destruct H as (x & s1 & H1 & H). apply UserHasMode_iff in H1; auto. destruct H1 as (-> & _ & P3).
  destruct H as [(-> & -> & ->)|[-> H]]. { split; auto. split; auto. intros _. exists "o"%char. split; [cbn; auto|]. apply P3. auto. }
  apply UserHasMode_iff in H; auto. destruct H as (-> & _ & P4). split; auto. split.
  - intros ->. exists "h"%char. split; [cbn; auto|]. apply P4. auto.
  - intros (x & I & P). cbn in I. destruct I as [<- |[<- |[<- |[<- |[]]]]]; [apply P4; auto|apply P3 in P; discriminate|apply P2 in P; discriminate|apply P1 in P; discriminate].
Qed.
Lemma invites_wr : forall s s' ch k, wr s s' -> assoc ch (s_chans s) = Some k -> assoc ch (s_chans s') = Some k.
Proof. intros s s' ch k W A. rewrite (w_chans _ _ (wr_same _ _ W)). exact A. Qed.
Lemma invite_check_ok : forall h g req ch s r s' k d, wf s -> assoc ch (s_chans s) = Some k -> noonce (ch_bans k) -> assoc g (s_heap s) = Some d -> fits d -> 
  invite_check h h g req ch s = Ok r s' -> exists k', assoc ch (s_chans s') = Some k' /\
   ((may_invite s h g ch k /\ needs_invite s d k -> invited (shown_mask s d) (ch_invites k) (ch_invites k')) /\
    (~ (may_invite s h g ch k /\ needs_invite s d k) -> ch_invites k' = ch_invites k)).
Proof.
  intros h g req ch s r s' k d W A NB AG F H. unfold invite_check in H. cbv zeta in H.
  assert (ERR : forall (m : M bool) s2, rel wr m -> (b <- m ;; ret (Some b)) s = Ok r s2 -> ~ (may_invite s h g ch k /\ needs_invite s d k) -> exists k', assoc ch (s_chans s2) = Some k' /\
   ((may_invite s h g ch k /\ needs_invite s d k -> invited (shown_mask s d) (ch_invites k) (ch_invites k')) /\ (~ (may_invite s h g ch k /\ needs_invite s d k) -> ch_invites k' = ch_invites k))).
  { intros m s2 R E NM. bd E as b0 s3 E1. apply ret_ok in E. destruct E as [_ ->]. exists k. split; [eapply invites_wr; [exact (R _ _ _ E1)|exact A]|]. split; [intro Q; contradiction|auto]. }
  bd H as mem s1 H1. apply IsMemberOf_on in H1. destruct H1 as [-> MM]. destruct mem; cbn [negb] in H.
  2: { eapply ERR; [|exact H|]; [rel_auto|]. intros [(Q & _) _]. apply MM in Q. discriminate. }
  bd H as v s1 H1. apply ChHasMode_ok in H1. destruct H1 as (-> & k1 & A1 & EV). rewrite A in A1. injection A1 as <-. destruct v.
  { eapply ERR; [|exact H|]; [rel_auto|]. intros [(_ & Q & _) _]. apply Q. apply strchr0_In; [auto|discriminate]. }
  bd H as i s1 H1. apply ChHasMode_ok in H1. destruct H1 as (-> & k1 & A1 & EI). rewrite A in A1. injection A1 as <-.
  bd H as priv s1 H1. assert (PP : s1 = s /\ (priv = true <-> (In "i"%char (ch_modes k) -> half_op s h ch))).
  { destruct i.
    - apply half_ok in H1; auto. destruct H1 as [-> P]. split; auto. rewrite P. split; auto. intro Q. apply Q. apply strchr0_In; [auto|discriminate].
    - apply ret_ok in H1. destruct H1 as [-> ->]. split; auto. split; auto. intros _ I. exfalso. apply strchr0_iff in I; [congruence|discriminate]. }
  clear H1. destruct PP as [-> PP]. destruct priv; cbn [negb] in H.
  2: { eapply ERR; [|exact H|]; [rel_auto|]. intros [(_ & _ & Q & _) _]. apply PP in Q. discriminate. }
  bd H as tm s1 H1. apply IsMemberOf_on in H1. destruct H1 as [-> MT]. destruct tm.
  { eapply ERR; [|exact H|]; [rel_auto|]. intros [(_ & _ & _ & Q) _]. apply Q. apply MT. auto. }
  assert (MI : may_invite s h g ch k). { split; [apply MM; auto|]. split; [intro I; apply strchr0_iff in I; [congruence|discriminate]|]. split; [apply PP; auto|]. intro Q. apply MT in Q. discriminate. }
  bd H as b s1 H1. assert (I1 : IS s s1) by xlast H1. destruct (Bans_ok _ _ _ _ _ _ _ (wf_chans _ W) A NB AG F H1) as [Q1 LB]. clear H1. destruct (I1 _ _ A) as (k1 & A1 & E1). destruct (qu_cli _ _ Q1 _ _ AG) as (d1 & AG1 & L1).
  bd H as u s2 H2. apply ret_ok in H. destruct H as [_ ->]. assert (NI : i || b = true <-> needs_invite s d k). { unfold needs_invite. rewrite orb_true_iff, LB. rewrite EI. rewrite <- strchr0_iff by discriminate. reflexivity. }
  unfold whenM in H2. destruct (i || b) eqn:E.
  - bd H2 as m s3 H3. destruct (MaskCloaked_shown _ _ _ _ _ AG1 (fits_looks _ _ _ _ L1 F) H3) as [W3 ->]. bd H2 as w s4 H4. assert (W4 : wr s3 s4) by xlast H4. unfold Channel_AddInvite in H2. bd H2 as t s5 H5. unfold now in H5. rdgets H5. apply upd_chan_ok in H2. destruct H2 as (k2 & A2 & ->).
    pose proof (invites_wr _ _ _ _ W4 (invites_wr _ _ _ _ W3 A1)) as A2'. unfold chandle in *. rewrite A2' in A2. injection A2 as <-. eexists. split; [cbn [s_chans set_s_chans]; rewrite assoc_aupd, Nat.eqb_refl, A2'; reflexivity|].
    destruct (looks_mask _ _ _ _ L1) as [EM _]. cbn [ch_invites set_ch_invites]. rewrite EM, E1. split; [intros _; apply Add_invited, shown_len; auto|]. intro Q. exfalso. apply Q. split; auto. apply NI. auto.
  - apply ret_ok in H2. destruct H2 as [_ ->]. exists k1. split; auto. split; [|auto]. intros [_ Q]. apply NI in Q. discriminate.
Qed.
Lemma invite_line : forall s i h c text t name b s' j g d ch k, live s -> undisturbed s -> client_of s i h c -> cl_type c = T_USER -> client_of s j g d -> cl_type d = T_USER ->
  orders s text "INVITE" [t; name] -> the_client s t g d -> the_channel s name ch k -> Parse_Request i text s = Ok b s' ->
  exists k', exists_chan s' ch k' /\
   ((may_invite s h g ch k /\ needs_invite s d k -> invited (shown_mask s d) (ch_invites k) (ch_invites k')) /\
    (~ (may_invite s h g ch k /\ needs_invite s d k) -> ch_invites k' = ch_invites k)).
Proof.
  intros s i h c text t name b s' j g d ch k L U C T CD TD OR TC TK H. pose proof (live_wf _ L) as W.
  assert (T' : cl_type c <> T_SERVER) by congruence.
  destruct (run_prepared s i h c text "INVITE"%string [t; name] (mkCommand "INVITE" IRC_INVITE US 2 (Some 2) 1) b s') as (nm & s1 & [PR V] & SN & RUN); auto.
  { rewrite T. reflexivity. } { intros m M. injection M as <-. cbn. lia. }
  destruct (prepared_X (also wf ichan) _ _ _ _ _ PR W) as [W1 IC1]. specialize (IC1 (live_ichan _ L)).
  destruct (user_fits _ _ _ _ L U CD TD) as [FD ND]. pose proof CD as [_ CD2]. pose proof C as [_ C2]. rewrite lookup_assoc in CD2, C2. pose proof TK as (EC & _). unfold exists_chan in EC. rewrite lookup_assoc in EC.
  cbn [cm_fun] in RUN. unfold IRC_INVITE, with_sender in RUN. bd RUN as srv s2 H2. apply is_type_ok in H2. destruct H2 as (-> & c3 & A3 & ->). rewrite (v_heap _ _ V), C2 in A3. injection A3 as <-. rewrite T in RUN. cbn [ctype_eqb] in RUN.
  unfold arg in RUN. cbn [rq_args nth] in RUN. cbv zeta in RUN.
  bd RUN as o s2 H2. assert (O2 : s2 = s1 /\ o = Some g).
  { apply Client_Search_ok in H2. destruct H2 as [-> H2]. split; auto. destruct TC as ((I & A) & (d' & (_ & A') & SN') & UN). rewrite lookup_assoc, CD2 in A'. injection A' as <-. destruct o as [x|].
    - f_equal. apply UN. destruct H2 as (I1 & c4 & A4 & HI). rewrite (v_heap _ _ V) in A4. rewrite (v_clients _ _ V) in I1. eapply has_id_called; eauto.
    - exfalso. assert (I1 : In g (s_clients s1)) by (rewrite (v_clients _ _ V); auto). destruct (H2 g I1) as (c4 & A4 & HI). rewrite (v_heap _ _ V), CD2 in A4. injection A4 as <-.
      rewrite (called_has_id s t g d) in HI; [discriminate| |auto| |]; [intros hh cc; apply (live_icli _ L)|exists d; split; [split; [auto|rewrite lookup_assoc; auto]|auto]|]. intro E. apply same_name_iff in SN'. rewrite E in SN'. apply caseeq_len in SN'. destruct (cl_id d); [auto|discriminate SN']. }
  destruct O2 as [-> ->]. clear H2. bd RUN as ok s2 H2. apply is_type_ok in H2. destruct H2 as (-> & c3 & A3 & ->). rewrite (v_heap _ _ V), CD2 in A3. injection A3 as <-. rewrite TD in RUN. cbn [ctype_eqb] in RUN.
  bd RUN as tc s2 H2. apply Client_Conn_ok in H2. destruct H2 as (-> & c3 & A3 & ->). rewrite (v_heap _ _ V), CD2 in A3. injection A3 as <-.
  destruct (local_user _ _ _ _ L U CD TD) as (_ & _ & _ & CI & _). rewrite CI in RUN. cbn [is_some negb] in RUN. rewrite andb_false_r in RUN.
  bd RUN as oc s2 H2. assert (SE : s2 = s1 /\ oc = Some ch). { assert (Q : Channel_Search name s = Ok oc s) by (unfold Channel_Search in H2 |- *; unfold gets in H2 |- *; injection H2 as <- _; rewrite (v_chans _ _ V); reflexivity). destruct (search_one _ _ _ _ _ _ L TK Q) as [_ Q2]. split; [|exact Q2]. unfold Channel_Search, gets in H2. injection H2 as _ <-. reflexivity. }
  destruct SE as [-> ->]. clear H2. bd RUN as r s2 H2. assert (EC1 := EC). rewrite <- (v_chans _ _ V) in EC1. 
  eapply (invite_check_ok h g _ ch s1 r s2 k d) in H2; auto; [|apply (kg_once _ _ _ (ic_good _ (live_ichan _ L) _ _ EC))|rewrite (v_heap _ _ V); auto].
  destruct H2 as (k' & A' & P1 & P2). assert (W3 : wr s2 s') by (destruct r; [rdret RUN; reflexivity|xlast RUN]). exists k'. split; [unfold exists_chan; rewrite lookup_assoc; eapply invites_wr; eauto|].
  assert (E1 : may_invite s1 h g ch k <-> may_invite s h g ch k) by (unfold may_invite, half_op, has_priv, is_on; rewrite (v_members _ _ V); reflexivity).
  assert (E2 : needs_invite s1 d k <-> needs_invite s d k) by (unfold needs_invite, listed; rewrite (view_shown _ _ _ V); reflexivity).
  rewrite E1, E2, (view_shown _ _ _ V) in P1. rewrite E1, E2 in P2. auto.
Qed.
Lemma used_up : forall s c l l' a e b, used_by s c l l' -> l = a ++ e :: b -> (forall x, In x (a ++ b) -> ~ means s c x) -> means s c e -> le_once e = true -> l' = a ++ b.
Proof.
  intros s c l l' a e b U E N M O. destruct U as [[Q _]|(a1 & e1 & b1 & E1 & N1 & M1 & E2)].
  - destruct (Q e); [rewrite E; apply in_app_iff; right; left; auto|auto].
  - assert (a1 = a /\ e1 = e /\ b1 = b) as (-> & -> & ->); [|rewrite O in E2; auto]. rewrite E in E1. clear E E2 O l l'. revert a1 E1 N1 N. induction a as [|x a IH]; intros a1 E1 N1 N.
    + destruct a1 as [|y a1]; [injection E1; auto|]. injection E1 as <- E1. destruct (N1 e); [left; auto|auto].
    + destruct a1 as [|y a1].
      * injection E1 as E0 E1. subst e1. destruct (N x); [left; auto|auto].
      * injection E1 as -> E1. destruct (IH a1 E1) as (-> & -> & ->); auto; [intros z Z; apply N1; right; auto|intros z Z; apply N; right; auto].
Qed.

Lemma perm_line : forall s s' i h c text b, live s -> client_of s i h c -> Parse_Request i text s = Ok b s' ->
  forall ch k k' e, exists_chan s ch k -> exists_chan s' ch k' -> In e (ch_invites k) -> le_once e = false ->
  (exists e', In e' (ch_invites k') /\ kind e' = kind e) \/ (a_line_of text ("MODE"%string :: LOGIN) /\ (cl_type c = T_USER -> a_line_of text ["MODE"]%string)).
Proof.
  intros s s' i h c text b L C H ch k k' e J J' I O. destruct (by_line_of perm_stay _ ("MODE"%string :: LOGIN) ["MODE"%string] s s' (fun h0 req => Handle_Numeric_relp h0 req) (others_perm s) (uothers_perm s) _ L i h c text b C H ch k k' J J') as [R|R]; auto.
  left. destruct (R e I O) as (e' & I' & M & O'). exists e'. split; auto. unfold kind. congruence.
Qed.
Lemma stay_line : forall s s' i h c text b, live s -> client_of s i h c -> Parse_Request i text s = Ok b s' ->
  forall ch k k' e, exists_chan s ch k -> exists_chan s' ch k' -> In e (ch_invites k) ->
  (exists e', In e' (ch_invites k') /\ kind e' = kind e) \/ (a_line_of text ("MODE"%string :: "JOIN"%string :: LOGIN) /\ (cl_type c = T_USER -> a_line_of text ["MODE"; "JOIN"]%string)).
Proof.
  intros s s' i h c text b L C H ch k k' e J J' I. destruct (by_line_of mask_stay _ ("MODE"%string :: "JOIN"%string :: LOGIN) ["MODE"%string; "JOIN"%string] s s' (fun h0 req => Handle_Numeric_relp h0 req) (others_stay s) (uothers_stay s) _ L i h c text b C H ch k k' J J') as [R|R]; auto.
  left. destruct (R e I) as (e' & I' & M & O'). exists e'. split; auto. unfold kind. congruence.
Qed.
Lemma news_line : forall s s' i h c text b, live s -> client_of s i h c -> Parse_Request i text s = Ok b s' ->
  forall ch k k' e, exists_chan s ch k -> exists_chan s' ch k' -> In e (ch_invites k') ->
  (exists e', In e' (ch_invites k) /\ kind e' = kind e) \/ (a_line_of text ("MODE"%string :: "INVITE"%string :: LOGIN) /\ (cl_type c = T_USER -> a_line_of text ["MODE"; "INVITE"]%string)).
Proof.
  intros s s' i h c text b L C H ch k k' e J J' I. destruct (by_line_of no_new _ ("MODE"%string :: "INVITE"%string :: LOGIN) ["MODE"%string; "INVITE"%string] s s' (fun h0 req => Handle_Numeric_relp h0 req) (others_news s) (uothers_news s) _ L i h c text b C H ch k k' J J') as [R|R]; auto.
  left. destruct (R e I) as (e' & I' & M & O'). exists e'. split; auto. unfold kind. congruence.
Qed.
Lemma chore_inv : forall s s', live s -> chore s s' -> forall ch k k', exists_chan s ch k -> exists_chan s' ch k' -> ch_invites k' = ch_invites k.
Proof. intros s s' L H. apply (chore_chan inv_same _ s s'); auto. apply chore_rel. exact H. Qed.
