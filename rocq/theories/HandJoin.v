(** Joining channels (C15, C44): what one JOIN command of a registered user changes. *)
From Coq Require Import List Ascii String ZArith NArith Bool Lia Arith.
From Coq Require Import Relations RelationClasses.
From Verif Require Import Bytes Match MatchSpec MatchProofs Lists ListsProofs Hash ParseReq State Messages Monad Core Write Info Chan Mode Msg Login Oper Server Dispatch Conn.
From Verif Require Import Rel RelWrite RelInfo RelBase RelChan RelSrv RelInit RelKey RelCmd RelComp WF RelGone Frame Tree Inv1 Inv2 Inv4 Spec Observ Unch HandOper HandPrefix HandLine Frames Live Attrib HandGain HandUser HandChan.
Import ListNotations.
Local Open Scope m_scope.

(** ---- the shown host name is stable ---- *)
Lemma wr_cloak_name : forall s s' c c', wr s s' -> cl_same c c' -> cloak_name s' c' = cloak_name s c.
Proof.
  intros s s' c c' W [x ->]. unfold cloak_name. pose proof (w_conf _ _ (wr_same _ _ W)) as E. rewrite E. cbn [cl_host cl_introducer set_cl_cloaked].
  destruct (negb _); auto. destruct (cl_introducer c) as [i|]; auto. destruct (assoc i (s_heap s)) as [d|] eqn:A.
  - destruct (wr_cli _ _ _ _ W A) as (y & ->). reflexivity.
  - destruct (assoc i (s_heap s')) as [d|] eqn:A'; auto. destruct (wr_cli_back _ _ _ _ W A') as (c0 & x0 & A0 & _). congruence.
Qed.
(** [c'] in [s'] is [c] in [s] except that the cloaked host name may be stored now *)
Definition looks (s : state) (c : client) (s' : state) (c' : client) : Prop := cl_same c c' /\ cloak_name s' c' = cloak_name s c /\ shown_host s' c' = shown_host s c /\
  (cl_cloaked c' = cl_cloaked c \/ (cl_cloaked c = None /\ cl_cloaked c' = Some (cloak_name s c))).
Lemma looks_refl : forall s c, looks s c s c.
Proof. intros. split; [apply cl_same_refl|auto]. Qed.
Lemma looks_trans : forall s1 c1 s2 c2 s3 c3, looks s1 c1 s2 c2 -> looks s2 c2 s3 c3 -> looks s1 c1 s3 c3.
Proof. intros s1 c1 s2 c2 s3 c3 ([x ->] & B1 & C1 & D1) ([y ->] & B2 & C2 & D2). split; [exists y; destruct c1; reflexivity|]. split; [congruence|]. split; [congruence|].
  cbn [cl_cloaked set_cl_cloaked] in *. destruct D1 as [D1|[D1 D1']], D2 as [D2|[D2 D2']]; subst; auto; [right; split; congruence|congruence]. Qed.
Lemma wr_looks : forall s s', wr s s' -> forall h c, assoc h (s_heap s) = Some c -> exists c', assoc h (s_heap s') = Some c' /\ looks s c s' c'.
Proof.
  intros s s' W. induction W as [s s' W|s|s s1 s' W1 I1 W2 I2]; intros h c A.
  - assert (W' : wr s s') by (apply rt_step; auto). assert (T : forall c', cl_same c c' -> cl_cloaked c' = cl_cloaked c -> looks s c s' c').
    { intros c' S E. pose proof (wr_cloak_name _ _ _ _ W' S) as E1. split; auto. split; auto. split; auto. destruct S as [x ->]. unfold shown_host. cbn [cl_modes cl_host set_cl_cloaked]. rewrite E, E1. reflexivity. }
    destruct W; cbn [s_heap set_s_heap set_con set_cli set_s_conns set_s_out set_s_wcounter] in *;
      try (exists c; split; [exact A|]; apply T; [apply cl_same_refl|reflexivity]).
    rewrite assoc_aupd. destruct (Nat.eqb_spec h0 h); [|exists c; split; [exact A|]; apply T; [apply cl_same_refl|reflexivity]]. subst h0. rewrite H in A. injection A as <-. rewrite H. cbn [option_map].
    exists (set_cl_cloaked (Some x) c0). split; auto. assert (S : cl_same c0 (set_cl_cloaked (Some x) c0)) by (eexists; reflexivity). pose proof (wr_cloak_name _ _ _ _ W' S) as E1. split; auto. split; auto. split.
    + unfold shown_host. cbn [cl_modes cl_host cl_cloaked set_cl_cloaked]. rewrite H1, <- H2. reflexivity.
    + right. subst x. auto.
  - exists c. split; auto. apply looks_refl.
  - destruct (I1 _ _ A) as (c1 & A1 & L1). destruct (I2 _ _ A1) as (c2 & A2 & L2). exists c2. split; auto. eapply looks_trans; eauto.
Qed.
Lemma looks_mask : forall s c s' c', looks s c s' c' -> shown_mask s' c' = shown_mask s c /\ full_mask c' = full_mask c.
Proof. intros s c s' c' ([x ->] & _ & E & _). unfold shown_mask, full_mask. rewrite E. auto. Qed.
(** a client whose masks fit into the buffers *)
Record fits (c : client) : Prop := mk_fits { fi_id : List.length (cl_id c) < 32; fi_user : List.length (cl_user c) < CLIENT_USER_LEN; fi_host : List.length (cl_host c) < CLIENT_HOST_LEN; fi_cloaked : osize CLIENT_HOST_LEN (cl_cloaked c); fi_type : cl_type c = T_USER }.
Lemma cloak_name_len : forall s c, List.length (cloak_name s c) < CLIENT_HOST_LEN.
Proof.
  intros s c. unfold cloak_name. destruct (negb _).
  - unfold cloak. rewrite firstn_length. unfold CLIENT_HOST_LEN. lia.
  - destruct (cl_introducer c); [|cbn; unfold CLIENT_HOST_LEN; lia]. destruct (assoc _ _); [|cbn; unfold CLIENT_HOST_LEN; lia]. apply strlcpy_len. unfold CLIENT_HOST_LEN; lia.
Qed.
Lemma fits_looks : forall s c s' c', looks s c s' c' -> fits c -> fits c'.
Proof. intros s c s' c' ([x ->] & _ & _ & D) []. split; auto. cbn [cl_cloaked set_cl_cloaked] in *. destruct D as [-> |[_ ->]]; auto. apply cloak_name_len. Qed.
Lemma shown_len : forall s c, fits c -> List.length (shown_host s c) < CLIENT_HOST_LEN.
Proof. intros s c []. unfold shown_host. destruct (memb _ _); auto. destruct (cl_cloaked c); auto. apply cloak_name_len. Qed.
Lemma fits_mask : forall c h, fits c -> List.length h < CLIENT_HOST_LEN -> mask_of c h = cl_id c ++ "!"%char :: cl_user c ++ "@"%char :: h.
Proof.
  intros c h [] L. unfold mask_of. apply firstn_all2. rewrite app_length. cbn [List.length]. rewrite app_length. cbn [List.length]. unfold CLIENT_USER_LEN, CLIENT_HOST_LEN, GETID_LEN in *. lia.
Qed.
Lemma Mask_full : forall h s m s' c, assoc h (s_heap s) = Some c -> fits c -> Client_Mask h s = Ok m s' -> s' = s /\ m = full_mask c.
Proof.
  intros h s m s' c A F H. unfold Client_Mask in H. bd H as c1 s1 H1. apply cli_ok in H1. destruct H1 as [H1 ->]. rewrite A in H1. injection H1 as <-. apply ret_ok in H. destruct H as [-> ->]. split; auto.
  rewrite (fi_type _ F). cbn [ctype_eqb]. rewrite fits_mask; auto. apply F.
Qed.
Lemma Displayed_shown : forall h s d s' c, assoc h (s_heap s) = Some c -> Client_HostnameDisplayed h s = Ok d s' -> wr s s' /\ d = shown_host s c.
Proof.
  intros h s d s' c A H. assert (W : wr s s') by (revert H; apply Client_HostnameDisplayed_rel). split; auto. destruct (wr_looks _ _ W _ _ A) as (c' & A' & _ & _ & <- & _).
  unfold Client_HostnameDisplayed in H. bd H as c1 s1 H1. apply cli_ok in H1. destruct H1 as [H1 ->]. rewrite A in H1. injection H1 as <-. unfold shown_host.
  destruct (memb "x" (cl_modes c)) eqn:X; cbn [negb] in H.
  - destruct (cl_cloaked c) as [t|] eqn:E; cbn [negb] in H.
    + apply ret_ok in H. destruct H as [-> ->]. rewrite A in A'. injection A' as <-. rewrite X, E. reflexivity.
    + bd H as u s1 H1. bd H as c2 s2 H2. apply cli_ok in H2. destruct H2 as [H2 ->]. apply nonnull_ok in H. destruct H as [E2 ->]. rewrite A' in H2. injection H2 as <-.
      destruct (wr_cli _ _ _ _ W A) as (y & A2). rewrite A' in A2. injection A2 as ->. cbn [cl_modes set_cl_cloaked]. rewrite X. cbn [cl_cloaked set_cl_cloaked] in *. rewrite E2. reflexivity.
  - apply ret_ok in H. destruct H as [-> ->]. rewrite A in A'. injection A' as <-. rewrite X. reflexivity.
Qed.
Lemma MaskCloaked_shown : forall h s m s' c, assoc h (s_heap s) = Some c -> fits c -> Client_MaskCloaked h s = Ok m s' -> wr s s' /\ m = shown_mask s c.
Proof.
  intros h s m s' c A F H. unfold Client_MaskCloaked in H. bd H as c1 s1 H1. apply cli_ok in H1. destruct H1 as [H1 ->]. rewrite A in H1. injection H1 as <-.
  destruct (memb "x" (cl_modes c)) eqn:X; cbn [negb] in H.
  - bd H as d s1 H1. destruct (Displayed_shown _ _ _ _ _ A H1) as [W ->]. bd H as c2 s2 H2. apply cli_ok in H2. destruct H2 as [H2 ->]. apply ret_ok in H. destruct H as [-> ->]. split; auto.
    destruct (wr_cli _ _ _ _ W A) as (y & A2). rewrite H2 in A2. injection A2 as ->. assert (E : mask_of (set_cl_cloaked y c) (shown_host s c) = mask_of c (shown_host s c)) by reflexivity. rewrite E. apply fits_mask; auto. apply shown_len; auto.
  - destruct (Mask_full _ _ _ _ _ A F H) as [-> ->]. split; [reflexivity|]. unfold shown_mask, shown_host, full_mask. rewrite X. reflexivity.
Qed.
(** ---- channels up to their invitations ---- *)
Record keeps (k k' : channel) : Prop := mk_keeps {
  kp_name : ch_name k' = ch_name k; kp_hash : ch_hash k' = ch_hash k; kp_modes : ch_modes k' = ch_modes k; kp_key : ch_key k' = ch_key k; kp_max : ch_maxusers k' = ch_maxusers k;
  kp_bans : ch_bans k' = ch_bans k; kp_excepts : ch_excepts k' = ch_excepts k; kp_file : ch_keyfile k' = ch_keyfile k; kp_invites : incl (ch_invites k') (ch_invites k) }.
Lemma keeps_refl : forall k, keeps k k.
Proof. intro k. split; auto. apply incl_refl. Qed.
Lemma keeps_trans : forall a b c, keeps a b -> keeps b c -> keeps a c.
Proof. intros a b c [] []. split; try congruence. eapply incl_tran; eauto. Qed.
Definition kept (p p' : chandle * channel) : Prop := fst p' = fst p /\ keeps (snd p) (snd p').
Lemma kept_refl : forall l, Forall2 kept l l.
Proof. induction l; constructor; auto. split; auto. apply keeps_refl. Qed.
Lemma kept_trans : forall l1 l2 l3, Forall2 kept l1 l2 -> Forall2 kept l2 l3 -> Forall2 kept l1 l3.
Proof. intros l1 l2 l3 H. revert l3. induction H; intros l3 K; inversion K; subst; constructor; auto. destruct H, H3. split; [congruence|eapply keeps_trans; eauto]. Qed.
Lemma kept_keys : forall l l', Forall2 kept l l' -> map fst l' = map fst l.
Proof. induction 1 as [|? ? ? ? [A _]]; cbn; congruence. Qed.
Lemma kept_assoc : forall l l', Forall2 kept l l' -> forall ch, match assoc ch l, assoc ch l' with Some k, Some k' => keeps k k' | None, None => True | _, _ => False end.
Proof. induction 1 as [|[a x] [b y] l l' [A K] H IH]; intro ch; cbn [assoc]; auto. cbn in A, K. subst b. destruct (Nat.eqb ch a); [exact K|apply IH]. Qed.
Lemma kept_set : forall ch f l k, NoDup (map fst l) -> assoc ch l = Some k -> keeps k (f k) -> Forall2 kept l (aupd ch f l).
Proof.
  intros ch f l k N A K. assert (E : forall p, In p l -> fst p = ch -> snd p = k). { intros [a x] I E. cbn in *. subst a. apply In_assoc in I; auto. congruence. } clear N A. unfold aupd.
  induction l as [|[a x] l IH]; cbn [map]; constructor; [|apply IH; intros; apply E; auto; right; auto]. cbn [fst snd]. destruct (Nat.eqb_spec ch a); [|split; cbn; auto; apply keeps_refl].
  split; cbn; auto. specialize (E (a, x) (or_introl eq_refl) (eq_sym e)). cbn in E. subst x. exact K.
Qed.
Lemma kept_search : forall l l', Forall2 kept l l' -> forall n, option_map fst (find (fun p => chan_is n (snd p)) l') = option_map fst (find (fun p => chan_is n (snd p)) l).
Proof.
  induction 1 as [|[a x] [b y] l l' [A K] H IH]; intro n; cbn [find]; auto. cbn [snd fst] in *. subst b. assert (E : chan_is n y = chan_is n x) by (unfold chan_is; rewrite (kp_hash _ _ K), (kp_name _ _ K); auto). rewrite E. destruct (chan_is n x); auto.
Qed.
(** everything about channels, except that invitations may be used up; clients up to [looks] *)
Record quiet (s s' : state) : Prop := mk_quiet {
  qu_conf : s_conf s' = s_conf s; qu_mb : s_members s' = s_members s; qu_next : s_chnext s' = s_chnext s;
  qu_cli : forall h c, assoc h (s_heap s) = Some c -> exists c', assoc h (s_heap s') = Some c' /\ looks s c s' c';
  qu_chan : Forall2 kept (s_chans s) (s_chans s') }.
#[export] Instance quiet_preorder : PreOrder quiet.
Proof.
  split.
  - intro s. split; auto using kept_refl. intros h c A. exists c. split; auto. apply looks_refl.
  - intros s1 s2 s3 [] []. split; try congruence; [|eapply kept_trans; eauto]. intros h c A. destruct (qu_cli0 _ _ A) as (c1 & A1 & L1). destruct (qu_cli1 _ _ A1) as (c2 & A2 & L2). exists c2. split; auto. eapply looks_trans; eauto.
Qed.
Lemma quiet_wr : forall s s', wr s s' -> quiet s s'.
Proof. intros s s' W. pose proof (wr_looks _ _ W) as L. destruct (wr_same _ _ W). split; auto. rewrite w_chans. apply kept_refl. Qed.
#[export] Instance quiet_sub : WrSub quiet.
Proof. intros s s' H. apply quiet_wr, rt_step. auto. Qed.
Lemma quiet_set : forall s ch f k, NoDup (map fst (s_chans s)) -> assoc ch (s_chans s) = Some k -> keeps k (f k) -> quiet s (set_chan ch f s).
Proof.
  intros s ch f k N A K. split; try reflexivity.
  - intros h c H. exists c. split; auto. split; [apply cl_same_refl|]. auto.
  - cbn. eapply kept_set; eauto.
Qed.
Lemma quiet_nodup : forall s s', quiet s s' -> NoDup (map fst (s_chans s)) -> NoDup (map fst (s_chans s')).
Proof. intros s s' Q. rewrite (kept_keys _ _ (qu_chan _ _ Q)). auto. Qed.
Lemma quiet_ch : forall s s' ch k, quiet s s' -> assoc ch (s_chans s) = Some k -> exists k', assoc ch (s_chans s') = Some k' /\ keeps k k'.
Proof. intros s s' ch k Q A. pose proof (kept_assoc _ _ (qu_chan _ _ Q) ch) as K. rewrite A in K. destruct (assoc ch (s_chans s')) as [k'|]; [|contradiction]. eauto. Qed.
Lemma looks_listed : forall s c s' c' l, looks s c s' c' -> (listed s' c' l <-> listed s c l).
Proof. intros s c s' c' l L. destruct (looks_mask _ _ _ _ L) as [E1 E2]. unfold listed. rewrite E1, E2. reflexivity. Qed.
Lemma listed_incl : forall s c l l', incl l' l -> listed s c l' -> listed s c l.
Proof. intros s c l l' I (e & A & B). exists e. split; auto. Qed.
Lemma CheckReason_listed : forall l s c r l', Lists_CheckReason l (shown_mask s c) (full_mask c) = (r, l') -> (is_some r = true <-> listed s c l) /\ incl l' l.
Proof.
  intros l s c r l' H. split.
  - pose proof (Lists_Check_listed l (shown_mask s c) (full_mask c)) as E. unfold Lists_Check in E. rewrite H in E. cbn [fst] in E. assert (is_some r = existsb (fun e => le_match e (shown_mask s c) (full_mask c)) l) as -> by (rewrite <- E; destruct r; reflexivity).
    rewrite existsb_exists. unfold listed, le_match. split; intros (e & I & M); exists e; split; auto; [apply orb_true_iff in M; tauto|apply orb_true_iff; tauto].
  - pose proof (CheckReason_list l (shown_mask s c) (full_mask c)) as E. rewrite H in E. cbn [snd] in E. destruct E as [-> |(h1 & e & h2 & -> & -> & _)]; [apply incl_refl|]. intros x I. apply in_app_iff in I. apply in_app_iff. destruct I; auto. right. right. auto.
Qed.
(** Lists_Check on a list of a channel *)
Lemma Check_ok : forall (get : channel -> mlist) (put : mlist -> channel -> channel) ch h s r s' k c,
  (forall l, incl l (get k) -> (noonce (get k) -> l = get k) -> keeps k (put l k)) ->
  NoDup (map fst (s_chans s)) -> assoc ch (s_chans s) = Some k -> assoc h (s_heap s) = Some c -> fits c ->
  Check_List (c <- chan ch ;; ret (get c)) (fun l => upd_chan ch (put l)) h s = Ok r s' -> quiet s s' /\ (is_some r = true <-> listed s c (get k)).
Proof.
  intros get put ch h s r s' k c K N A AC F H. unfold Check_List in H. bd H as l s1 H1. bd H1 as k1 s2 H2. apply chan_ok in H2. destruct H2 as [H2 ->]. rewrite A in H2. injection H2 as <-. apply ret_ok in H1. destruct H1 as [-> ->].
  destruct (get k) as [|e l0] eqn:E.
  - apply ret_ok in H. destruct H as [-> ->]. split; [reflexivity|]. split; [discriminate|]. intros (x & [] & _).
  - bd H as mc s1 H1. destruct (MaskCloaked_shown _ _ _ _ _ AC F H1) as [W1 ->]. destruct (wr_looks _ _ W1 _ _ AC) as (c1 & AC1 & L1). bd H as m s2 H2. destruct (Mask_full _ _ _ _ _ AC1 (fits_looks _ _ _ _ L1 F) H2) as [-> ->].
    destruct (looks_mask _ _ _ _ L1) as [_ EM]. rewrite EM in H. destruct (Lists_CheckReason (e :: l0) (shown_mask s c) (full_mask c)) as [r1 l'] eqn:R. bd H as u s2 H3. apply ret_ok in H. destruct H as [-> ->].
    destruct (CheckReason_listed _ _ _ _ _ R) as [C1 C2]. split; [|exact C1]. transitivity s1; [apply quiet_wr; auto|]. apply upd_chan_ok in H3. destruct H3 as (k2 & A2 & ->). rewrite (w_chans _ _ (wr_same _ _ W1)), A in A2. injection A2 as <-.
    eapply (quiet_set s1 ch (put l')); [rewrite (w_chans _ _ (wr_same _ _ W1)); auto|rewrite (w_chans _ _ (wr_same _ _ W1)); eauto|]. apply K; rewrite ?E; auto.
    intro NO. pose proof (noonce_check (e :: l0) (shown_mask s c) (full_mask c) NO) as X. rewrite R in X. exact X.
Qed.
Lemma Bans_ok : forall ch h s b s' k c, NoDup (map fst (s_chans s)) -> assoc ch (s_chans s) = Some k -> noonce (ch_bans k) -> assoc h (s_heap s) = Some c -> fits c ->
  Check_Bans ch h s = Ok b s' -> quiet s s' /\ (b = true <-> listed s c (ch_bans k)).
Proof.
  intros ch h s b s' k c N A NO AC F H. unfold Check_Bans in H. bd H as r s1 H1. apply ret_ok in H. destruct H as [-> ->]. eapply (Check_ok ch_bans set_ch_bans) in H1; eauto.
  intros l I E. rewrite (E NO). split; auto. apply incl_refl.
Qed.
Lemma Excepts_ok : forall ch h s b s' k c, NoDup (map fst (s_chans s)) -> assoc ch (s_chans s) = Some k -> noonce (ch_excepts k) -> assoc h (s_heap s) = Some c -> fits c ->
  Check_Excepts ch h s = Ok b s' -> quiet s s' /\ (b = true <-> listed s c (ch_excepts k)).
Proof.
  intros ch h s b s' k c N A NO AC F H. unfold Check_Excepts in H. bd H as r s1 H1. apply ret_ok in H. destruct H as [-> ->]. eapply (Check_ok ch_excepts set_ch_excepts) in H1; eauto.
  intros l I E. rewrite (E NO). split; auto. apply incl_refl.
Qed.
Lemma Invites_ok : forall ch h s b s' k c, NoDup (map fst (s_chans s)) -> assoc ch (s_chans s) = Some k -> assoc h (s_heap s) = Some c -> fits c ->
  Check_Invites ch h s = Ok b s' -> quiet s s' /\ (b = true <-> listed s c (ch_invites k)).
Proof.
  intros ch h s b s' k c N A AC F H. unfold Check_Invites in H. bd H as r s1 H1. apply ret_ok in H. destruct H as [-> ->]. eapply (Check_ok ch_invites set_ch_invites) in H1; eauto.
  intros l I E. split; auto.
Qed.
Lemma strchr_split : forall c t p r, strchr c t = Some (p, r) -> t = p ++ c :: tl r.
Proof. intros c t p r H. pose proof (strchr_spec c t) as K. rewrite H in K. destruct K as (K1 & K2 & x & ->). exact K1. Qed.
Lemma CheckKey_ok : forall ch h key s b s' k c, assoc ch (s_chans s) = Some k -> assoc h (s_heap s) = Some c -> cl_id c <> [] -> Channel_CheckKey ch h key s = Ok b s' ->
  s' = s /\ (b = true -> In "k"%char (ch_modes k) -> right_key s c k key).
Proof.
  intros ch h key s b s' k c A AC NI H. unfold Channel_CheckKey in H. bd H as k1 s1 H1. apply chan_ok in H1. destruct H1 as [H1 ->]. rewrite A in H1. injection H1 as <-.
  destruct (memb "k" (ch_modes k)) eqn:M; cbn [negb] in H.
  2: { apply ret_ok in H. destruct H as [-> ->]. split; auto. intros _ I. apply memb_In in I. congruence. }
  destruct (beq key []) eqn:E0; [apply ret_ok in H; destruct H as [-> ->]; split; auto; discriminate|]. assert (NE : key <> []) by (intros ->; discriminate E0).
  destruct (beq (ch_key k) key) eqn:E1; [apply ret_ok in H; destruct H as [-> ->]; split; auto; intros _ _; split; auto; left; apply beq_eq in E1; auto|].
  destruct (ch_keyfile k) as [|f0 f] eqn:E2; [apply ret_ok in H; destruct H as [-> ->]; split; auto; discriminate|].
  bd H as ln s1 H1. unfold cf in H1. rdgets H1. bd H as us s1 H1. unfold Client_User in H1. bd H1 as c1 s2 H2. apply cli_ok in H2. destruct H2 as [H2 ->]. rewrite AC in H2. injection H2 as <-. apply ret_ok in H1. destruct H1 as [-> ->].
  bd H as id s1 H1. unfold Client_ID in H1. bd H1 as c1 s2 H2. apply cli_ok in H2. destruct H2 as [H2 ->]. rewrite AC in H2. injection H2 as <-. bd H1 as mx s2 H2. unfold cf in H2. rdgets H2. bd H1 as u s2 H2. apply assertM_ok in H2. destruct H2 as [_ ->]. apply ret_ok in H1. destruct H1 as [-> ->].
  apply ret_ok in H. destruct H as [-> ->]. split; auto. intros K _. apply existsb_exists in K. destruct K as (line & I & K). destruct (strchr ":" (trim line)) as [[u0 r]|] eqn:S1; [|discriminate]. apply andb_true_iff in K. destruct K as [K1 K].
  destruct (strchr ":" (tl r)) as [[n r2]|] eqn:S2; [|discriminate]. apply andb_true_iff in K. destruct K as [K2 K3]. apply beq_eq in K3. split; auto. right. split; [congruence|]. rewrite E2. exists line, u0, n. split; auto.
  apply strchr_split in S1, S2. split; [rewrite S1, S2, <- K3; reflexivity|]. split; [destruct (cl_user c); exact K1|]. destruct (cl_id c); auto; congruence.
Qed.
Lemma looks_modes : forall s c s' c', looks s c s' c' -> cl_modes c' = cl_modes c /\ cl_id c' = cl_id c /\ cl_type c' = cl_type c /\ cl_user c' = cl_user c.
Proof. intros s c s' c' ([x ->] & _). auto. Qed.
Lemma looks_key : forall s c s' c' k k' key, s_conf s' = s_conf s -> looks s c s' c' -> keeps k k' -> right_key s' c' k' key -> right_key s c k key.
Proof.
  intros s c s' c' k k' key E L K [N R]. destruct (looks_modes _ _ _ _ L) as (_ & E1 & _ & E2). split; auto. rewrite (kp_key _ _ K) in R. destruct R as [R|[R1 (line & u & n & I & T & M1 & M2)]]; auto. right.
  rewrite (kp_file _ _ K), E in *. rewrite E1, E2 in *. split; auto. exists line, u, n. auto.
Qed.
Ltac deny H := let u := fresh in let s1 := fresh in let H1 := fresh in bd H as u s1 H1; apply ret_ok in H; destruct H as [? ->].
Lemma join_allowed_ok : forall h ch name key s b s' k c, NoDup (map fst (s_chans s)) -> assoc ch (s_chans s) = Some k -> noonce (ch_bans k) -> noonce (ch_excepts k) -> assoc h (s_heap s) = Some c -> fits c -> cl_id c <> [] ->
  (forall t, key = Some t -> t <> []) ->
  join_allowed h ch name key s = Ok b s' -> quiet s s' /\ (b = true -> admitted s c ch k key).
Proof.
  intros h ch name key s b s' k c N A NB NE AC F NI KN H. unfold join_allowed in H. cbv zeta in H.
  assert (DENY : forall msg x y z, (void (IRC_WriteErrClient h msg [aID h; aS name]) ;;; ret false) x = Ok y z -> quiet x z /\ (y = true -> admitted s c ch k key)).
  { intros msg x y z Hx. bd Hx as u s1 H1. apply ret_ok in Hx. destruct Hx as [-> ->]. split; [|discriminate]. xlast H1. }
  bd H as op s1 H1. apply HasMode_ok in H1. destruct H1 as (-> & c1 & A1 & E1). rewrite AC in A1. injection A1 as <-. destruct op.
  { apply ret_ok in H. destruct H as [-> ->]. split; [reflexivity|]. intros _. left. apply strchr0_In; [auto|discriminate]. }
  bd H as isb s1 H1. destruct (Bans_ok _ _ _ _ _ _ _ N A NB AC F H1) as [Q1 B1]. destruct (quiet_ch _ _ _ _ Q1 A) as (k1 & A1 & K1). destruct (qu_cli _ _ Q1 _ _ AC) as (c1 & AC1 & L1). clear H1.
  bd H as ise s2 H2. destruct (Excepts_ok _ _ _ _ _ _ _ (quiet_nodup _ _ Q1 N) A1 ltac:(rewrite (kp_excepts _ _ K1); auto) AC1 (fits_looks _ _ _ _ L1 F) H2) as [Q2 B2]. rewrite (looks_listed _ _ _ _ _ L1), (kp_excepts _ _ K1) in B2.
  assert (Q12 : quiet s s2) by (transitivity s1; auto). destruct (quiet_ch _ _ _ _ Q12 A) as (k2 & A2 & K2). destruct (qu_cli _ _ Q12 _ _ AC) as (c2 & AC2 & L2). clear H2 Q2 Q1 A1 AC1 K1 L1 k1 c1.
  bd H as isi s3 H3. destruct (Invites_ok _ _ _ _ _ _ _ (quiet_nodup _ _ Q12 N) A2 AC2 (fits_looks _ _ _ _ L2 F) H3) as [Q3 B3]. rewrite (looks_listed _ _ _ _ _ L2) in B3.
  assert (B3' : isi = true -> listed s c (ch_invites k)). { intro E. apply B3 in E. eapply listed_incl; [apply K2|exact E]. }
  assert (Q13 : quiet s s3) by (transitivity s2; auto). destruct (quiet_ch _ _ _ _ Q13 A) as (k3 & A3 & K3). destruct (qu_cli _ _ Q13 _ _ AC) as (c3 & AC3 & L3). clear H3 Q3 Q12 A2 AC2 K2 L2 B3 k2 c2.
  destruct (looks_modes _ _ _ _ L3) as (M1 & M2 & M3 & M4).
  assert (QD : forall msg y z, (void (IRC_WriteErrClient h msg [aID h; aS name]) ;;; ret false) s3 = Ok y z -> quiet s z /\ (y = true -> admitted s c ch k key)).
  { intros msg y z Hy. destruct (DENY _ _ _ _ Hy) as [D1 D2]. split; auto. transitivity s3; auto. }
  destruct (isb && negb isi && negb ise) eqn:EB; [eapply QD; eauto|].
  bd H as bi s4 H4. apply ChHasMode_ok in H4. destruct H4 as (-> & x & A4 & Ei). rewrite A3 in A4. injection A4 as <-. rewrite (kp_modes _ _ K3) in Ei.
  destruct (bi && negb isi) eqn:EI; [eapply QD; eauto|].
  bd H as bk s4 H4. eapply CheckKey_ok in H4; eauto; [|congruence]. destruct H4 as [-> Ek]. rewrite (kp_modes _ _ K3) in Ek. destruct bk; cbn [negb] in H; [|eapply QD; eauto]. specialize (Ek eq_refl).
  bd H as bl s4 H4. apply ChHasMode_ok in H4. destruct H4 as (-> & x & A4 & El). rewrite A3 in A4. injection A4 as <-. rewrite (kp_modes _ _ K3) in El.
  bd H as mx s4 H4. unfold Channel_MaxUsers in H4. bd H4 as x s5 H5. apply chan_ok in H5. destruct H5 as [H5 ->]. rewrite A3 in H5. injection H5 as <-. apply ret_ok in H4. destruct H4 as [-> ->]. rewrite (kp_max _ _ K3) in H.
  bd H as n s4 H4. unfold Channel_MemberCount in H4. rdgets H4. rewrite (qu_mb _ _ Q13) in H.
  destruct (bl && _)%bool eqn:EL; [eapply QD; eauto|].
  bd H as bz s4 H4. apply ChHasMode_ok in H4. destruct H4 as (-> & x & A4 & Ez). rewrite A3 in A4. injection A4 as <-. rewrite (kp_modes _ _ K3) in Ez. destruct bz; [eapply QD; eauto|].
  bd H as bo s4 H4. apply ChHasMode_ok in H4. destruct H4 as (-> & x & A4 & Eo). rewrite A3 in A4. injection A4 as <-. rewrite (kp_modes _ _ K3) in Eo. cbn [negb] in H. rewrite andb_true_r in H. destruct bo; [eapply QD; eauto|].
  bd H as br s4 H4. apply ChHasMode_ok in H4. destruct H4 as (-> & x & A4 & Er). rewrite A3 in A4. injection A4 as <-. rewrite (kp_modes _ _ K3) in Er.
  bd H as rg s4 H4. apply HasMode_ok in H4. destruct H4 as (-> & x & A4 & Eg). rewrite AC3 in A4. injection A4 as <-. rewrite M1 in Eg.
  destruct (br && negb rg) eqn:ER; [eapply QD; eauto|]. apply ret_ok in H. destruct H as [-> ->]. split; auto. intros _. right.
  assert (SI : forall x l, x <> "000"%char -> In x l -> strchr0 x l = true). { intros x l Nx I. unfold strchr0. apply orb_true_iff. right. apply memb_In. auto. }
  repeat split.
  - intro LB. apply B1 in LB. rewrite LB in EB. destruct isi; [right; auto|]. destruct ise; [left; apply B2; auto|discriminate].
  - intro I. apply SI in I; [|discriminate]. rewrite <- Ei in I. rewrite I in EI. apply B3'. destruct isi; auto; discriminate.
  - intro I. specialize (Ek I). destruct key as [t|]; [|exfalso; destruct Ek as [Ek _]; auto]. exists t. split; auto. eapply looks_key; [apply Q13|exact L3|exact K3|exact Ek].
  - intro I. apply SI in I; [|discriminate]. rewrite <- El in I. rewrite I in EL. cbn [andb] in EL. apply Z.leb_gt in EL. exact EL.
  - intro I. apply SI in I; [|discriminate]. congruence.
  - intro I. apply SI in I; [|discriminate]. congruence.
  - intro I. apply SI in I; [|discriminate]. rewrite <- Er in I. rewrite I in ER. apply strchr0_In; [|discriminate]. rewrite <- Eg. destruct rg; auto; discriminate.
Qed.
(** ---- one round ---- *)
(** what the membership of a user that joined by JOIN looks like *)
Definition joined (s : state) (c : client) (name : bytes) (key : option bytes) (ch : chandle) (ms : bytes) : Prop :=
  match assoc ch (s_chans s) with
  | Some k => admitted s c ch k key /\
      (forall x, In x ms -> x = "o"%char /\ In "P"%char (ch_modes k) /\ In "o"%char (cl_modes c) /\ cf_operchanpautoop (s_conf s) = true)
  | None => s_chnext s <= ch /\ (In "o"%char ms \/ hd0 name = "+"%char) /\ (forall x, In x ms -> x = "o"%char /\ hd0 name <> "+"%char)
  end.
Record added (h : handle) (ch : chandle) (ms name : bytes) (s s' : state) : Prop := mk_added {
  ad_conf : s_conf s' = s_conf s; ad_mb : s_members s' = mkMember h ch ms :: s_members s; ad_next : s_chnext s <= s_chnext s';
  ad_cli : forall h c, assoc h (s_heap s) = Some c -> exists c', assoc h (s_heap s') = Some c' /\ looks s c s' c';
  ad_chan : forall x k, assoc x (s_chans s) = Some k -> exists k', assoc x (s_chans s') = Some k' /\ keeps k k';
  ad_new : forall x k', assoc x (s_chans s') = Some k' -> x <> ch -> assoc x (s_chans s) <> None;
  ad_name : exists k', assoc ch (s_chans s') = Some k' /\ same_name name (ch_name k') /\ (assoc ch (s_chans s) = None -> ~ In "P"%char (ch_modes k')) }.
Lemma added_quiet : forall h ch ms name s s1 s2, added h ch ms name s s1 -> quiet s1 s2 -> added h ch ms name s s2.
Proof.
  intros h ch ms name s s1 s2 [] Q. pose proof Q as []. split; try congruence; try lia.
  - intros x c A. destruct (ad_cli0 _ _ A) as (c1 & A1 & L1). destruct (qu_cli0 _ _ A1) as (c2 & A2 & L2). exists c2. split; auto. eapply looks_trans; eauto.
  - intros x k A. destruct (ad_chan0 _ _ A) as (k1 & A1 & K1). destruct (quiet_ch _ _ _ _ Q A1) as (k2 & A2 & K2). exists k2. split; auto. eapply keeps_trans; eauto.
  - intros x k' A N. pose proof (kept_assoc _ _ qu_chan0 x) as K. rewrite A in K. destruct (assoc x (s_chans s1)) eqn:A1; [|contradiction]. eauto.
  - destruct ad_name0 as (k1 & A1 & N1 & M1). destruct (quiet_ch _ _ _ _ Q A1) as (k2 & A2 & K2). exists k2. rewrite (kp_name _ _ K2), (kp_modes _ _ K2). auto.
Qed.
Lemma quiet_added : forall h ch ms name s s1 s2, quiet s s1 -> added h ch ms name s1 s2 -> added h ch ms name s s2.
Proof.
  intros h ch ms name s s1 s2 Q []. pose proof Q as []. split; try congruence; try lia.
  - intros x c A. destruct (qu_cli0 _ _ A) as (c1 & A1 & L1). destruct (ad_cli0 _ _ A1) as (c2 & A2 & L2). exists c2. split; auto. eapply looks_trans; eauto.
  - intros x k A. destruct (quiet_ch _ _ _ _ Q A) as (k1 & A1 & K1). destruct (ad_chan0 _ _ A1) as (k2 & A2 & K2). exists k2. split; auto. eapply keeps_trans; eauto.
  - intros x k' A N. pose proof (kept_assoc _ _ qu_chan0 x) as K. specialize (ad_new0 _ _ A N). destruct (assoc x (s_chans s1)); [|congruence]. destruct (assoc x (s_chans s)); [discriminate|contradiction].
  - destruct ad_name0 as (k1 & A1 & N1 & M1). exists k1. split; auto. split; auto. intro Z. apply M1. pose proof (kept_assoc _ _ qu_chan0 ch) as K. rewrite Z in K. destruct (assoc ch (s_chans s1)); [contradiction|auto].
Qed.
Lemma added_mode : forall h ch ms name s s1 u s2 x, added h ch ms name s s1 -> assoc ch (s_chans s) = None -> x <> "P"%char -> Channel_ModeAdd ch x s1 = Ok u s2 -> added h ch ms name s s2.
Proof.
  intros h ch ms name s s1 u s2 x [] N HP H. unfold Channel_ModeAdd in H. bd H as k s3 H3. apply chan_ok in H3. destruct H3 as [A3 ->]. pose proof (mode_add_In "P" (ch_modes k) x) as MI. destruct (mode_add _ _) as [ms1 b1]. cbn [fst] in MI. bd H as v s3 H3. apply ret_ok in H. destruct H as [-> ->].
  apply upd_chan_ok in H3. destruct H3 as (k2 & A2 & ->). rewrite A3 in A2. injection A2 as <-. split; cbn [s_conf s_members s_chnext s_heap s_chans set_s_chans set_chan]; auto.
  - intros y k' A. destruct (ad_chan0 _ _ A) as (k1 & A1 & K1). exists k1. split; auto. rewrite assoc_aupd. destruct (Nat.eqb_spec ch y); [congruence|auto].
  - intros y k' A NE. rewrite assoc_aupd in A. destruct (Nat.eqb_spec ch y); [congruence|eauto].
  - destruct ad_name0 as (k1 & A1 & N1 & M1). rewrite A3 in A1. injection A1 as <-. eexists. rewrite assoc_aupd, Nat.eqb_refl, A3. cbn [option_map]. split; [reflexivity|]. cbn. split; auto. intros Z I. destruct (MI I) as [I2|I2]; [exact (M1 Z I2)|congruence].
Qed.
Lemma added_user_mode : forall h ch ms name s s1 u s2 x, added h ch ms name s s1 -> Channel_UserModeAdd ch h x s1 = Ok u s2 -> added h ch (fst (mode_add ms x)) name s s2.
Proof.
  intros h ch ms name s s1 u s2 x [] H. unfold Channel_UserModeAdd in H. bd H as o s3 H3. unfold Get_Cl2Chan in H3. rdgets H3. bd H as mb s3 H3. apply nonnull_ok in H3. destruct H3 as [F ->].
  rewrite ad_mb0 in F. assert (E : is_mb ch h (mkMember h ch ms) = true) by (unfold is_mb, heq; cbn; rewrite !Nat.eqb_refl; reflexivity). cbn [find] in F. rewrite E in F. injection F as <-.
  cbn [mb_modes] in H. destruct (mode_add ms x) as [ms1 b1]. bd H as v s3 H3. apply modify_ok in H3. apply ret_ok in H. destruct H as [-> ->]. subst s3. split; cbn [s_conf s_members s_chnext s_heap s_chans set_s_members]; auto.
  rewrite ad_mb0. cbn [upd_mb]. rewrite E. reflexivity.
Qed.
Lemma search_quiet : forall n s s', quiet s s' -> Channel_Search n s' = match Channel_Search n s with Ok o _ => Ok o s' | Bad w => Bad w end.
Proof. intros n s s' Q. unfold Channel_Search, gets. rewrite (kept_search _ _ (qu_chan _ _ Q)). reflexivity. Qed.
Lemma join_check_ok : forall h name o key flags s r s' c, wf s -> ichan s -> assoc h (s_heap s) = Some c -> fits c -> cl_id c <> [] -> (forall t, key = Some t -> t <> []) ->
  Channel_Search name s = Ok o s -> join_check h h name o key flags s = Ok r s' -> quiet s s' /\
  match r with
  | inl _ => True
  | inr f => match o with
             | Some ch => f = flags /\ ~ is_on s h ch /\ exists k, assoc ch (s_chans s) = Some k /\ same_name name (ch_name k) /\ admitted s c ch k key
             | None => f = if negb (Ascii.eqb (hd0 name) "+") then Some (B "o") else flags
             end
  end.
Proof.
  intros h name o key flags s r s' c W IC A F NI KN SE H. pose proof SE as SE1. apply ChSearch_ok in SE1; auto. destruct SE1 as [_ SE1].
  unfold join_check in H. bd H as ty s1 H1. apply Client_Type_ok in H1. destruct H1 as (-> & c1 & A1 & ->). rewrite A in A1. injection A1 as <-. rewrite (fi_type _ F) in H. cbn [ctype_eqb] in H. cbv zeta in H.
  bd H as pre s1 H1. assert (P : wr s s1 /\ (pre = false -> match o with Some ch => ~ is_on s h ch | None => True end)).
  { destruct o as [ch|].
    - apply IsMemberOf_on in H1. destruct H1 as [-> E]. split; [reflexivity|]. intros -> I. apply E in I. discriminate.
    - bd H1 as ty s2 H2. unfold cf in H2. rdgets H2. split; [|auto]. destruct (negb _); [|rdret H1; reflexivity]. xlast H1. }
  destruct P as [W1 P]. clear H1. destruct pre. { apply ret_ok in H. destruct H as [-> ->]. split; auto. apply quiet_wr; auto. } specialize (P eq_refl).
  bd H as mj s2 H2. unfold cf in H2. rdgets H2. bd H as n s2 H2. unfold Channel_CountForUser in H2. rdgets H2. destruct (_ && _)%bool in H.
  { bd H as ok s2 H2. assert (W2 : wr s1 s2) by xlast H2. apply ret_ok in H. destruct H as [-> ->]. split; auto. apply quiet_wr. transitivity s1; auto. }
  bd H as q s2 H2.
  destruct (wr_looks _ _ W1 _ _ A) as (c1 & A1 & L1).
  assert (Q : quiet s s2 /\ match q with None => True | Some f => match o with Some ch => f = flags /\ exists k, assoc ch (s_chans s) = Some k /\ same_name name (ch_name k) /\ admitted s c ch k key | None => f = if negb (Ascii.eqb (hd0 name) "+") then Some (B "o") else flags end end).
  { destruct o as [ch|].
    - destruct SE1 as (k & AK & SN). bd H2 as ok s3 H3. apply ret_ok in H2. destruct H2 as [-> ->]. destruct (kg_once _ _ _ (ic_good _ IC _ _ AK)) as [NB NE].
      destruct (wr_chans _ _ W1) as [E1 E2]. rewrite <- E1 in AK. assert (ND : NoDup (map fst (s_chans s1))) by (rewrite E1; apply (wf_chans _ W)).
      destruct (looks_modes _ _ _ _ L1) as (M1 & M2 & M3 & M4).
      eapply join_allowed_ok in H3; [|exact ND|exact AK|exact NB|exact NE|exact A1|exact (fits_looks _ _ _ _ L1 F)|congruence|exact KN]. destruct H3 as [Q3 AD]. split; [transitivity s1; auto; apply quiet_wr; auto|].
      destruct ok; auto. split; auto. exists k. rewrite E1 in AK. split; auto. split; auto. specialize (AD eq_refl).
      destruct AD as [AD|(D1 & D2 & D3 & D4 & D5 & D6 & D7)]; [left; congruence|right]. rewrite !(looks_listed _ _ _ _ _ L1) in D1. rewrite (looks_listed _ _ _ _ _ L1) in D2. rewrite M1 in D7. rewrite E2 in D4. repeat (split; auto).
      intro I. destruct (D3 I) as (t & -> & R). exists t. split; auto. eapply looks_key; [|exact L1|apply keeps_refl|exact R]. apply (wr_same _ _ W1).
    - apply ret_ok in H2. destruct H2 as [-> ->]. split; auto. apply quiet_wr; auto. }
  destruct Q as [Q E]. destruct q as [f|]; [|apply ret_ok in H; destruct H as [-> ->]; auto].
  bd H as oi s3 H3. same H3. bd H as i s3 H3. apply nonnull_ok in H3. destruct H3 as [_ ->]. bd H as u s3 H3. assert (W3 : wr s2 s3) by xlast H3. apply ret_ok in H. destruct H as [-> ->]. split; [transitivity s2; auto; apply quiet_wr; auto|].
  destruct o as [ch|]; auto. destruct E as [E1 E2]. auto.
Qed.
Definition round (h : handle) (c : client) (name : bytes) (key : option bytes) (s s' : state) : Prop :=
  quiet s s' \/ exists ch ms, ~ is_on s h ch /\ joined s c name key ch ms /\ added h ch ms name s s'.
Lemma userish_add : forall ch h s s' c u, assoc h (s_heap s) = Some c -> fits c -> Add_Client ch h s = Ok u s' -> s' = set_s_members (mkMember h ch [] :: s_members s) s /\ exists k, assoc ch (s_chans s) = Some k.
Proof. intros ch h s s' c u A F H. destruct u. apply Add_Client_ok in H. destruct H as (c1 & k & A1 & AK & ->). rewrite A in A1. injection A1 as <-. rewrite (fi_type _ F). cbn. eauto. Qed.
Lemma chan_keeps : forall s ch k, assoc ch (s_chans s) = Some k -> exists k', assoc ch (s_chans s) = Some k' /\ keeps k k'.
Proof. intros. exists k. split; auto. apply keeps_refl. Qed.
Lemma cli_looks : forall s s', s_conf s' = s_conf s -> s_heap s' = s_heap s -> forall h c, assoc h (s_heap s) = Some c -> exists c', assoc h (s_heap s') = Some c' /\ looks s c s' c'.
Proof.
  intros s s' E1 E2 h c A. exists c. rewrite E2. split; auto. assert (E : cloak_name s' c = cloak_name s c) by (unfold cloak_name; rewrite E1, E2; reflexivity). split; [apply cl_same_refl|]. split; auto. split; auto. unfold shown_host. rewrite E. reflexivity.
Qed.
Lemma wf_chfresh : forall s, wf s -> assoc (s_chnext s) (s_chans s) = None.
Proof. intros s W. destruct (assoc (s_chnext s) (s_chans s)) eqn:E; auto. apply wf_chlt in E; auto. lia. Qed.
Lemma wf_mblt : forall s m, wf s -> In m (s_members s) -> mb_chan m < s_chnext s.
Proof. intros s m W I. assert (In (mpair m) (sh_members (shape_of s))) as J by (apply in_map; auto). apply (wf_mbchan _ W) in J. apply (wf_chnext _ W) in J. destruct m. exact J. Qed.
Lemma join_one_ok : forall h name key s x s' c, wf s -> ichan s -> assoc h (s_heap s) = Some c -> fits c -> cl_id c <> [] -> (forall t, key = Some t -> t <> []) ->
  join_one h h name key s = Ok x s' -> round h c name key s s'.
Proof.
  intros h name key s x s' c W IC A F NI KN H. unfold join_one in H. bd H as srv s1 H1. apply is_type_ok in H1. destruct H1 as (-> & c1 & A1 & ->). rewrite A in A1. injection A1 as <-. rewrite (fi_type _ F) in H. cbn [ctype_eqb] in H.
  bd H as o s1 H1. pose proof H1 as SE. apply ChSearch_ok in H1; auto. destruct H1 as [-> SN]. bd H as r s2 H2. eapply join_check_ok in H2; eauto. destruct H2 as [Q2 R]. destruct r as [y|f]; [apply ret_ok in H; destruct H as [-> ->]; left; auto|].
  bd H as ok s3 H3. unfold Channel_Join in H3. destruct (valid_chan name) eqn:V; cbn [negb] in H3.
  2: { bd H3 as u s4 H4. assert (W4 : wr s2 s4) by xlast H4. apply ret_ok in H3. destruct H3 as [-> ->]. cbn [negb] in H. apply ret_ok in H. destruct H as [-> ->]. left. transitivity s2; auto. apply quiet_wr; auto. }
  bd H3 as o2 s4 H4. rewrite (search_quiet _ _ _ Q2), SE in H4. injection H4 as <- <-.
  destruct (qu_cli _ _ Q2 _ _ A) as (c2 & A2 & L2). pose proof (fits_looks _ _ _ _ L2 F) as F2. destruct (looks_modes _ _ _ _ L2) as (M1 & M2 & M3 & M4).
  assert (Z : exists ch, ok = true /\ added h ch [] name s s3 /\ ~ is_on s h ch /\ match o with Some ch0 => ch = ch0 | None => assoc ch (s_chans s) = None /\ s_chnext s <= ch /\ Channel_Search name s3 = Ok (Some ch) s3 end).
  { destruct o as [ch|].
    - destruct R as (-> & NO & k & AK & SNk & AD). bd H3 as b s4 H4. apply IsMemberOf_on in H4. destruct H4 as [-> B]. destruct b. { exfalso. apply NO. destruct B as [B _]. destruct (B eq_refl) as (m & I & E). exists m. rewrite <- (qu_mb _ _ Q2). auto. }
      bd H3 as u s4 H4. apply ret_ok in H3. destruct H3 as [-> ->]. destruct (userish_add _ _ _ _ _ _ A2 F2 H4) as (-> & k2 & AK2). exists ch. split; auto. split; [|auto]. eapply quiet_added; eauto.
      destruct (quiet_ch _ _ _ _ Q2 AK) as (k2' & AK2' & KP). rewrite AK2 in AK2'. injection AK2' as <-.
      split; cbn [s_conf s_members s_chnext s_heap s_chans set_s_members]; auto using chan_keeps.
      + match goal with |- forall _ _, _ -> exists _, _ /\ looks ?a _ ?b _ => apply (cli_looks a b); reflexivity end.
      + intros y k' Ay _. congruence.
      + exists k2. split; auto. rewrite (kp_name _ _ KP). split; auto. intro; congruence.
    - bd H3 as ch s4 H4. apply Channel_Create_ok in H4. destruct H4 as [-> ->]. bd H3 as u s4 H4. apply ret_ok in H3. destruct H3 as [-> ->]. set (s2' := set_s_chnext _ _) in H4.
      destruct (userish_add _ _ _ _ _ _ (A2 : assoc h (s_heap s2') = Some c2) F2 H4) as (-> & _). exists (s_chnext s2).
      assert (NN : assoc (s_chnext s2) (s_chans s2) = None). { rewrite (qu_next _ _ Q2). pose proof (kept_assoc _ _ (qu_chan _ _ Q2) (s_chnext s)) as K. assert (assoc (s_chnext s) (s_chans s) = None) as K0 by (apply wf_chfresh; auto). rewrite K0 in K. destruct (assoc (s_chnext s) (s_chans s2)); [contradiction|auto]. }
      assert (VN : strlcpy CHANNEL_NAME_LEN name = name). { apply strlcpy_short. unfold valid_chan in V. rewrite !andb_true_iff in V. destruct V as [[_ V] _]. apply Nat.ltb_lt in V. exact V. }
      split; auto. split; [|split; [|split; [|split]]].
      + eapply quiet_added; eauto. split; cbn [s_conf s_members s_chnext s_heap s_chans set_s_members s2' set_s_chnext set_s_chans]; auto.
        * match goal with |- forall _ _, _ -> exists _, _ /\ looks ?a _ ?b _ => apply (cli_looks a b); reflexivity end.
        * intros y k Ay. cbn [assoc]. destruct (Nat.eqb_spec y (s_chnext s2)); [congruence|]. apply chan_keeps; auto.
        * intros y k Ay NE. cbn [assoc] in Ay. destruct (Nat.eqb_spec y (s_chnext s2)); [congruence|]. congruence.
        * eexists. cbn [assoc]. rewrite Nat.eqb_refl. split; [reflexivity|]. cbn [ch_name ch_modes new_channel]. rewrite VN. split; [reflexivity|auto].
      + intros (m & I & E1 & E2). rewrite (qu_next _ _ Q2) in E2. apply (wf_mblt _ _ W) in I. unfold handle, chandle in *. lia.
      + rewrite (qu_next _ _ Q2). apply wf_chfresh; auto.
      + rewrite (qu_next _ _ Q2). auto.
      + unfold Channel_Search, gets. cbn [s_chans set_s_members s2' set_s_chnext set_s_chans find snd]. unfold chan_is at 1. cbn [ch_hash ch_name new_channel]. rewrite VN.
        assert (caseeq name name = true) as -> by (apply same_name_iff; reflexivity). rewrite N.eqb_refl. reflexivity. }
  clear H3. destruct Z as (ch & -> & AD & NO & Z). cbn [negb] in H.
  bd H as ch' s4 H4. assert (Y : ch' = ch /\ added h ch [] name s s4).
  { destruct o as [ch0|]; [subst ch0; apply ret_ok in H4; destruct H4 as [-> ->]; auto|]. destruct Z as (Z1 & Z2 & Z3). bd H4 as o' s5 H5. rewrite Z3 in H5. injection H5 as <- <-. bd H4 as ch1 s5 H5. apply nonnull_ok in H5. destruct H5 as [E5 ->]. injection E5 as <-.
    bd H4 as nm s5 H5. unfold Channel_Name in H5. bd H5 as k s6 H6. apply chan_ok in H6. destruct H6 as [H6 ->]. apply ret_ok in H5. destruct H5 as [-> ->].
    bd H4 as u s5 H5. apply ret_ok in H4. destruct H4 as [-> ->]. split; auto. destruct (Ascii.eqb (hd0 (ch_name k)) "+") eqn:E; cbn [whenM] in H5; [|apply ret_ok in H5; destruct H5 as [_ ->]; auto].
    bd H5 as v s6 H6'. bd H6' as w s7 H7. apply ret_ok in H6'. destruct H6' as [_ ->]. bd H5 as w' s8 H8. apply ret_ok in H5. destruct H5 as [_ ->].
    refine (added_mode _ _ _ _ _ _ _ _ _ _ Z1 _ H8); [|discriminate]. refine (added_mode _ _ _ _ _ _ _ _ _ AD Z1 _ H7); discriminate. }
  clear H4. destruct Y as [-> AD4]. clear AD. right.
  bd H as u5 s5 H5.
  assert (Y : exists ms, added h ch ms name s s5 /\ joined s c name key ch ms).
  { unfold join_set_channelmodes in H5. bd H5 as u6 s6 H6. bd H5 as p s7 H7. apply ChHasMode_ok in H7. destruct H7 as (-> & k6 & A6 & E6). bd H5 as au s7 H7. unfold cf in H7. rdgets H7. bd H5 as op s7 H7. apply HasMode_ok in H7. destruct H7 as (-> & c6 & AC6 & E7).
    assert (T : exists ms, added h ch ms name s s6 /\ match o with Some _ => ms = [] | None => ms = if negb (Ascii.eqb (hd0 name) "+") then ["o"%char] else [] end).
    { destruct o as [ch0|].
      - destruct R as (-> & _). cbn [mfor] in H6. apply ret_ok in H6. destruct H6 as [_ ->]. exists []. auto.
      - rewrite R in H6. destruct (Ascii.eqb (hd0 name) "+"); cbn [negb] in *.
        + cbn [mfor] in H6. apply ret_ok in H6. destruct H6 as [_ ->]. exists []. auto.
        + change (B "o") with ["o"%char] in H6. cbn [mfor] in H6. bd H6 as v s8 H8. apply ret_ok in H6. destruct H6 as [_ ->]. bd H8 as w s9 H9. apply ret_ok in H8. destruct H8 as [_ ->]. exists ["o"%char]. split; auto. eapply added_user_mode in H9; eauto. exact H9. }
    destruct T as (ms & AD6 & EM). destruct (ad_cli _ _ _ _ _ _ AD6 _ _ A) as (c6' & AC6' & L6). rewrite AC6 in AC6'. injection AC6' as <-. destruct (looks_modes _ _ _ _ L6) as (M6 & _). rewrite M6 in E7. rewrite (ad_conf _ _ _ _ _ _ AD6) in H5.
    destruct (ad_name _ _ _ _ _ _ AD6) as (k6' & A6' & _ & PM). rewrite A6 in A6'. injection A6' as <-.
    assert (SI : forall y l, y <> NUL -> strchr0 y l = true -> In y l) by (intros; apply strchr0_In; auto).
    destruct (p && _ && op)%bool eqn:PA; cbn [whenM] in H5.
    - apply andb_true_iff in PA. destruct PA as [PA ->]. apply andb_true_iff in PA. destruct PA as [-> PA]. bd H5 as w s8 H8. apply ret_ok in H5. destruct H5 as [_ ->]. exists (fst (mode_add ms "o")). split; [eapply added_user_mode; eauto|].
      symmetry in E6, E7. apply SI in E6; [|discriminate]. apply SI in E7; [|discriminate].
      unfold joined. destruct o as [ch0|].
      + destruct R as (_ & _ & k & AK & SNk & ADM). subst ch0. rewrite AK. split; auto. intros y I. apply mode_add_In in I. subst ms. destruct I as [[]|I]. subst y. split; auto.
        destruct (ad_chan _ _ _ _ _ _ AD6 _ _ AK) as (k' & A' & KP). rewrite A6 in A'. injection A' as <-. rewrite (kp_modes _ _ KP) in E6. auto.
      + destruct Z as (Z1 & Z2 & _). rewrite Z1. destruct (PM Z1 E6).
    - apply ret_ok in H5. destruct H5 as [_ ->]. exists ms. split; auto. unfold joined. destruct o as [ch0|].
      + destruct R as (_ & _ & k & AK & SNk & ADM). subst ch0. rewrite AK. split; auto. subst ms. intros y [].
      + destruct Z as (Z1 & Z2 & _). rewrite Z1. split; auto. subst ms. destruct (Ascii.eqb_spec (hd0 name) "+"); cbn [negb]; split; auto; try (intros y [<- |[]]; auto; fail). intros y []. left; left; auto. }
  destruct Y as (ms & AD5 & J). exists ch, ms. split; auto. split; auto. eapply added_quiet; eauto. apply quiet_wr. clear - H.
  bd H as u6 s6 H6. assert (W6 : wr s5 s6) by xlast H6. transitivity s6; auto. xlast H.
Qed.
(** ---- the loop ---- *)
Definition ckept (s s' : state) : Prop := forall x k, assoc x (s_chans s) = Some k -> exists k', assoc x (s_chans s') = Some k' /\ keeps k k'.
Record fw (h : handle) (s s' : state) : Prop := mk_fw {
  fw_conf : s_conf s' = s_conf s; fw_next : s_chnext s <= s_chnext s';
  fw_cli : forall j c, assoc j (s_heap s) = Some c -> exists c', assoc j (s_heap s') = Some c' /\ looks s c s' c';
  fw_chan : ckept s s';
  fw_new : forall x, assoc x (s_chans s) = None -> assoc x (s_chans s') <> None -> is_on s' h x;
  fw_mb : exists news, s_members s' = news ++ s_members s /\ forall m, In m news -> mb_client m = h }.
Lemma fw_refl : forall h s, fw h s s.
Proof.
  intros h s. split; auto.
  - intros j c A. exists c. split; auto. apply looks_refl.
  - intros x k A. exists k. split; auto. apply keeps_refl.
  - intros x N1 N2. congruence.
  - exists []. split; auto. intros m [].
Qed.
Lemma fw_round : forall h s s1 s2 c1 name key, fw h s s1 -> round h c1 name key s1 s2 -> fw h s s2.
Proof.
  intros h s s1 s2 c1 name key [] [Q|(ch & ms & NO & J & AD)].
  - pose proof Q as []. split; try congruence; try lia.
    + intros j c A. destruct (fw_cli0 _ _ A) as (x & A1 & L1). destruct (qu_cli0 _ _ A1) as (y & A2 & L2). exists y. split; auto. eapply looks_trans; eauto.
    + intros x k A. destruct (fw_chan0 _ _ A) as (k1 & A1 & K1). destruct (quiet_ch _ _ _ _ Q A1) as (k2 & A2 & K2). exists k2. split; auto. eapply keeps_trans; eauto.
    + intros x N1 N2. assert (N3 : assoc x (s_chans s1) <> None). { pose proof (kept_assoc _ _ qu_chan0 x) as K. destruct (assoc x (s_chans s1)); [discriminate|]. destruct (assoc x (s_chans s2)); [contradiction|congruence]. }
      destruct (fw_new0 _ N1 N3) as (m & I & E). exists m. rewrite qu_mb0. auto.
    + destruct fw_mb0 as (nw & E & P). exists nw. split; [congruence|auto].
  - pose proof AD as []. split; try congruence; try lia.
    + intros j c A. destruct (fw_cli0 _ _ A) as (x & A1 & L1). destruct (ad_cli0 _ _ A1) as (y & A2 & L2). exists y. split; auto. eapply looks_trans; eauto.
    + intros x k A. destruct (fw_chan0 _ _ A) as (k1 & A1 & K1). destruct (ad_chan0 _ _ A1) as (k2 & A2 & K2). exists k2. split; auto. eapply keeps_trans; eauto.
    + intros x N1 N2. destruct (Nat.eq_dec x ch) as [-> |NE]; [exists (mkMember h ch ms); rewrite ad_mb0; cbn; auto|]. destruct (assoc x (s_chans s2)) as [k2|] eqn:A2; [|congruence]. specialize (ad_new0 _ _ A2 NE).
      destruct (fw_new0 _ N1 ad_new0) as (m & I & E). exists m. rewrite ad_mb0. cbn. auto.
    + destruct fw_mb0 as (nw & E & P). exists (mkMember h ch ms :: nw). split; [rewrite ad_mb0, E; reflexivity|]. intros m [<- |I]; auto.
Qed.
Lemma fw_is_on : forall h s s' x, fw h s s' -> is_on s h x -> is_on s' h x.
Proof. intros h s s' x F (m & I & E). destruct (fw_mb _ _ _ F) as (nw & E1 & _). exists m. split; auto. rewrite E1. apply in_app_iff. auto. Qed.
Lemma fw_joined : forall h s s1 c c1 name key ch ms, fw h s s1 -> looks s c s1 c1 -> ~ is_on s1 h ch -> joined s1 c1 name key ch ms -> joined s c name key ch ms.
Proof.
  intros h s s1 c c1 name key ch ms F L NO J. unfold joined in *. destruct (looks_modes _ _ _ _ L) as (M1 & M2 & M3 & M4).
  destruct (assoc ch (s_chans s)) as [k|] eqn:A.
  - destruct (fw_chan _ _ _ F _ _ A) as (k1 & A1 & K). rewrite A1 in J. destruct J as [J1 J2]. split.
    + destruct J1 as [J1|(D1 & D2 & D3 & D4 & D5 & D6 & D7)]; [left; congruence|right]. rewrite !(looks_listed _ _ _ _ _ L), (kp_bans _ _ K), (kp_excepts _ _ K) in D1. rewrite (looks_listed _ _ _ _ _ L) in D2. rewrite (kp_modes _ _ K) in *. rewrite M1 in D7.
      split; [intro I; destruct (D1 I); auto; right; eapply listed_incl; [apply K|auto]|]. split; [intro I; eapply listed_incl; [apply K|auto]|].
      split; [intro I; destruct (D3 I) as (t & -> & R); exists t; split; auto; eapply looks_key; [apply F|exact L|exact K|exact R]|]. split; [|auto].
      intro I. specialize (D4 I). rewrite (kp_max _ _ K) in D4. destruct (fw_mb _ _ _ F) as (nw & E & P). rewrite E, filter_app, app_length in D4. assert (Z : filter (fun m => Nat.eqb (mb_chan m) ch) nw = []).
      { assert (Z : forall m, In m nw -> Nat.eqb (mb_chan m) ch = false). { intros m Im. apply Nat.eqb_neq. intro Em. apply NO. exists m. split; [rewrite E; apply in_app_iff; auto|]. split; auto. } clear - Z. induction nw as [|m nw IH]; cbn; auto. rewrite (Z m) by (left; auto). apply IH. intros; apply Z; right; auto. }
      rewrite Z in D4. exact D4.
    + rewrite (kp_modes _ _ K), M1, (fw_conf _ _ _ F) in J2. auto.
  - destruct (assoc ch (s_chans s1)) eqn:A1.
    + exfalso. apply NO. eapply fw_new; eauto. congruence.
    + destruct J as [J1 J2]. split; auto. pose proof (fw_next _ _ _ F). lia.
Qed.
(** a membership that a JOIN command for the list [chans] with the keys [keys] made *)
Definition by_join (h : handle) (s : state) (c : client) (chans keys : list bytes) (s' : state) (m : member) : Prop :=
  exists n name k', nth_error chans n = Some name /\ mb_client m = h /\ ~ is_on s h (mb_chan m) /\ joined s c name (nth_error keys n) (mb_chan m) (mb_modes m) /\
    assoc (mb_chan m) (s_chans s') = Some k' /\ same_name name (ch_name k').
Lemma join_one_good : forall h name key, rel (also wf ichan) (join_one h h name key).
Proof. intros. rel_auto. Qed.
Lemma hd_nth : forall (l : list bytes), hd_error l = nth_error l 0.
Proof. destruct l; reflexivity. Qed.
Lemma tl_nth : forall (l : list bytes) n, nth_error (tl l) n = nth_error l (S n).
Proof. destruct l; destruct n; reflexivity. Qed.
Lemma join_loop_ok : forall h s c chans keys s1 b s' c1, wf s1 -> ichan s1 -> fw h s s1 -> assoc h (s_heap s1) = Some c1 -> looks s c s1 c1 -> fits c -> cl_id c <> [] -> (forall t, In t keys -> t <> []) ->
  join_loop h h chans keys s1 = Ok b s' -> ckept s1 s' /\ exists news, s_members s' = news ++ s_members s1 /\ forall m, In m news -> by_join h s c chans keys s' m.
Proof.
  intros h s c chans. induction chans as [|name chans IH]; intros keys s1 b s' c1 W IC FW A L F NI KN H; cbn [join_loop] in H.
  - apply ret_ok in H. destruct H as [-> ->]. split; [apply (fw_chan _ _ _ (fw_refl h s1))|]. exists []. split; auto. intros m [].
  - bd H as x s2 H1. destruct (looks_modes _ _ _ _ L) as (M1 & M2 & M3 & M4). destruct (join_one_good _ _ _ _ _ _ H1 W) as [W2 IC2]. specialize (IC2 IC).
    assert (KN1 : forall t, hd_error keys = Some t -> t <> []). { intros t E. apply KN. destruct keys; cbn in E; [discriminate|]. injection E as <-. left; auto. }
    pose proof (join_one_ok _ _ _ _ _ _ _ W IC A (fits_looks _ _ _ _ L F) ltac:(congruence) KN1 H1) as R. pose proof (fw_round _ _ _ _ _ _ _ FW R) as FW2. pose proof (fw_round _ _ _ _ _ _ _ (fw_refl h s1) R) as FW12.
    destruct (fw_cli _ _ _ FW12 _ _ A) as (c2 & A2 & L2). pose proof (looks_trans _ _ _ _ _ _ L L2) as L02.
    assert (T : forall s3, ckept s2 s3 -> forall m ch ms, ~ is_on s1 h ch -> joined s1 c1 name (hd_error keys) ch ms -> added h ch ms name s1 s2 -> m = mkMember h ch ms -> by_join h s c (name :: chans) keys s3 m).
    { intros s3 CK m ch ms NO J AD ->. destruct (ad_name _ _ _ _ _ _ AD) as (k2 & AK & SN & _). destruct (CK _ _ AK) as (k3 & A3 & K3). exists 0, name, k3. cbn [mb_client mb_chan mb_modes nth_error]. split; auto. split; auto.
      split; [intro I; apply NO; eapply fw_is_on; eauto|]. split; [exact (fw_joined h s s1 c c1 name _ ch ms FW L NO J)|]. split; auto. rewrite (kp_name _ _ K3). auto. }
    assert (STOP : ckept s1 s2 /\ exists news, s_members s2 = news ++ s_members s1 /\ forall m, In m news -> by_join h s c (name :: chans) keys s2 m).
    { split; [apply FW12|]. destruct R as [Q|(ch & ms & NO & J & AD)].
      - exists []. split; [apply Q|]. intros m [].
      - exists [mkMember h ch ms]. split; [apply AD|]. intros m [<- |[]]. eapply (T s2); eauto. apply (fw_chan _ _ _ (fw_refl h s2)). }
    destruct x as [bb|]; [apply ret_ok in H; destruct H as [-> ->]; exact STOP|].
    eapply IH in H; [|exact W2|exact IC2|exact FW2|exact A2|exact L02|exact F|exact NI|intros t I; apply KN; destruct keys; [destruct I|right; auto]].
    destruct H as (CK & nw & E & P). split. { intros y k Ay. destruct (fw_chan _ _ _ FW12 _ _ Ay) as (k2 & A3 & K2). destruct (CK _ _ A3) as (k3 & A4 & K3). exists k3. split; auto. eapply keeps_trans; eauto. }
    assert (P' : forall m, In m nw -> by_join h s c (name :: chans) keys s' m). { intros m I. destruct (P m I) as (n & nm & k' & B1 & B2). rewrite tl_nth in B2. exists (S n), nm, k'. auto. }
    destruct R as [Q|(ch & ms & NO & J & AD)].
    + exists nw. split; auto. rewrite E. f_equal. apply Q.
    + exists (nw ++ [mkMember h ch ms]). split; [rewrite E, (ad_mb _ _ _ _ _ _ AD), <- app_assoc; reflexivity|]. intros m I. apply in_app_iff in I. destruct I as [I|[<- |[]]]; auto. eapply (T s'); eauto.
Qed.
Lemma strtok_ne : forall d t cur x, In x (strtok_aux d t cur) -> x <> [].
Proof.
  induction t as [|a t IH]; intros cur x I; cbn [strtok_aux] in I.
  - destruct cur as [|y cur]; cbn in I; [contradiction|]. destruct I as [<- |[]]. cbn. intro E. apply app_eq_nil in E. destruct E; discriminate.
  - destruct (Ascii.eqb a d) eqn:E; [|eauto]. destruct cur as [|y cur]; [eauto|]. destruct I as [<- |I]; [|eauto]. cbn. intro E1. apply app_eq_nil in E1. destruct E1; discriminate.
Qed.
(** ---- JOIN ---- *)
Definition incl_mb (s0 s : state) : Prop := forall m, In m (s_members s) -> In m (s_members s0).
#[export] Instance eq_MR : MR eq. Proof. split; congruence. Qed.
Lemma byM_eq : forall s0 s, byM (fun _ _ => False) eq s0 s -> incl_mb s0 s.
Proof. intros s0 s H m I. destruct (H m I) as [[]|(m0 & M0 & E1 & E2 & E3)]. destruct m, m0; cbn in *; subst. auto. Qed.
Definition key_list (req : request) : list bytes := if 1 <? argc req then strtok "," (arg req 1) else [].
Lemma IRC_JOIN_user : forall h req s b s' c, wf s -> ichan s -> assoc h (s_heap s) = Some c -> fits c -> cl_id c <> [] -> IRC_JOIN h req s = Ok b s' ->
  forall m, In m (s_members s') -> In m (s_members s) \/ by_join h s c (strtok "," (arg req 0)) (key_list req) s' m.
Proof.
  intros h req s b s' c W IC A F NI H m I. unfold IRC_JOIN, with_sender in H. bd H as srv s1 H1. apply is_type_ok in H1. destruct H1 as (-> & c1 & A1 & ->). rewrite A in A1. injection A1 as <-. rewrite (fi_type _ F) in H. cbn [ctype_eqb] in H.
  destruct (_ && _) in H.
  - left. assert (R : rel (also wf (byM (fun _ _ => False) eq s)) (part_from_all_channels h h)) by rel_auto. apply R in H. destruct (H W) as [_ H2]. exact (byM_eq _ _ (H2 byM_refl) _ I).
  - destruct (strtok "," (arg req 0)) as [|n0 chans] eqn:E; [left; assert (W1 : wr s s') by xlast H; rewrite (proj2 (wr_chans _ _ W1)) in I; exact I|].
    fold (key_list req) in H. eapply (join_loop_ok h s c (n0 :: chans)) in H; [|exact W|exact IC|apply fw_refl|exact A|apply looks_refl|exact F|exact NI|].
    + destruct H as (_ & nw & EM & P). rewrite EM in I. apply in_app_iff in I. destruct I; auto.
    + intros t It. unfold key_list in It. destruct (1 <? argc req); [|destruct It]. eapply strtok_ne; exact It.
Qed.
#[export] Instance all_MR : MR (fun _ _ => True). Proof. split; auto. Qed.
#[export] Instance all_MS : MS (fun _ _ => True). Proof. split; auto. Qed.
Lemma uothers_join : forall s0, uothers (also wf (byM (fun _ _ => False) (fun _ _ => True) s0)) ["JOIN"]%string.
Proof. intro s0. uothers_tac. Qed.
Lemma cmd_JOIN : forall cmd, In cmd My_Commands -> cm_name cmd = "JOIN"%string -> cmd = mkCommand "JOIN" IRC_JOIN US 1 (Some 2) 0.
Proof. intros cmd I E. which_cmd I E. Qed.
Lemma user_fits : forall s i h c, live s -> undisturbed s -> client_of s i h c -> cl_type c = T_USER -> fits c /\ cl_id c <> [].
Proof.
  intros s i h c L U [(cn & C1 & C3) C2] T. rewrite lookup_assoc in C1, C2. destruct (live_icli _ L _ _ C2) as [_ _ Z _ _]. destruct Z.
  assert (CN : cl_conn c <> None). { destruct (tr_c2h _ (live_itree _ L U) _ _ C1) as (h' & c' & K1 & K2 & K3). rewrite C3 in K1. injection K1 as <-. rewrite C2 in K2. injection K2 as <-. congruence. }
  assert (P : prereg (cl_type c) = true) by (rewrite T; reflexivity).
  split; [constructor; auto; eapply nick_short; eauto|].
  destruct (live_inick _ L U _ _ C2) as [Q|[Q|[[Q Q1]|Q]]]; [congruence|congruence|rewrite T in Q1; discriminate Q1|]. intro E. rewrite E in Q. discriminate Q.
Qed.
Lemma prepared_quiet : forall s s1, prepared s s1 -> quiet s s1.
Proof.
  intros s s1 (s2 & W & ->). transitivity s2; [apply quiet_wr; auto|]. split; auto using kept_refl. intros h c A. exists c. split; auto. destruct (cli_looks s2 (set_s_wcounter 0 s2) eq_refl eq_refl _ _ A) as (c' & A' & Lk). cbn in A'. rewrite A in A'. injection A' as <-. exact Lk.
Qed.
(** the pieces of an argument between commas, empty pieces left out *)
Lemma join_line : forall s i h c text b s', live s -> undisturbed s -> client_of s i h c -> cl_type c = T_USER -> Parse_Request i text s = Ok b s' ->
  forall m, In m (s_members s') -> ~ is_on s (mb_client m) (mb_chan m) ->
  exists args, says text "JOIN" args /\ by_join h s c (strtok "," (nth 0 args [])) (strtok "," (nth 1 args [])) s' m.
Proof.
  intros s i h c text b s' L U C T H m I N. pose proof (live_wf _ L) as W.
  assert (F : forall s2, also wf (byM (fun _ _ => False) (fun _ _ => True) s) s s2 -> forall x, In x (s_members s2) -> is_on s (mb_client x) (mb_chan x)).
  { intros s2 F x Ix. destruct (F W) as [_ F1]. destruct (F1 byM_refl x Ix) as [[]|(m0 & M0 & E1 & E2 & _)]. exists m0. auto. }
  destruct (user_line _ _ _ _ _ _ _ _ _ _ _ _ _ (uothers_join s) C T H) as [X|(cmd & req & s1 & R & E & X)]; [destruct N; eapply F; eauto|].
  cbn [existsb] in E. rewrite orb_false_r in E. apply String.eqb_eq in E. pose proof (cr_run _ _ _ _ _ _ _ _ _ _ R) as RUN. pose proof (cmd_JOIN _ (cr_in _ _ _ _ _ _ _ _ _ _ R) E) as EC.
  rewrite EC in RUN. cbn [cm_fun] in RUN. pose proof (prepared_quiet _ _ (cr_prep _ _ _ _ _ _ _ _ _ _ R)) as Q. destruct (prepared_X (also wf ichan) _ _ _ _ _ (cr_prep _ _ _ _ _ _ _ _ _ _ R) W) as [W1 IC1]. specialize (IC1 (live_ichan _ L)).
  destruct (user_fits _ _ _ _ L U C T) as [FI NI]. pose proof C as [_ C2]. rewrite lookup_assoc in C2. destruct (qu_cli _ _ Q _ _ C2) as (c1 & A1 & L1).
  destruct (looks_modes _ _ _ _ L1) as (_ & L2 & _). destruct (IRC_JOIN_user _ _ _ _ _ _ W1 IC1 A1 (fits_looks _ _ _ _ L1 FI) ltac:(congruence) RUN m I) as [I1|(n & name & k' & B1 & B2 & B3 & B4 & B5)].
  - destruct N. rewrite (qu_mb _ _ Q) in I1. exists m. auto.
  - destruct (cr_parse _ _ _ _ _ _ _ _ _ _ R) as (p & PL). pose proof (cr_min _ _ _ _ _ _ _ _ _ _ R) as MI. rewrite EC in MI. cbn in MI.
    exists (rq_args req). split; [exists p, (rq_command req); split; auto; pose proof (cr_name _ _ _ _ _ _ _ _ _ _ R) as NM; rewrite E in NM; exact NM|].
    assert (K1 : strtok "," (nth 0 (rq_args req) []) = strtok "," (arg req 0)) by (unfold arg; destruct (nth_error (rq_args req) 0) eqn:Z; auto).
    assert (K2 : strtok "," (nth 1 (rq_args req) []) = key_list req).
    { unfold key_list, arg, argc. destruct (rq_args req) as [|a0 [|a1 r]]; reflexivity. }
    rewrite K1, K2. exists n, name, k'. split; auto. split; auto. assert (B6 : ~ is_on s1 h (mb_chan m)) by exact B3.
    split; [intro Z; apply B3; destruct Z as (y & Y1 & Y2); exists y; rewrite (qu_mb _ _ Q); auto|]. split; [|auto].
    eapply fw_joined; [|exact L1|exact B3|exact B4]. eapply (fw_round h s s s1 c name None); [apply fw_refl|left; exact Q].
Qed.
Lemma is_on_dec : forall s j ch, {is_on s j ch} + {~ is_on s j ch}.
Proof.
  intros. destruct (existsb (fun m => Nat.eqb (mb_client m) j && Nat.eqb (mb_chan m) ch) (s_members s)) eqn:E; [left|right].
  - apply existsb_exists in E. destruct E as (m & I & E). apply andb_true_iff in E. destruct E as [E1 E2]. apply Nat.eqb_eq in E1, E2. exists m. auto.
  - intros (m & I & E1 & E2). assert (X : existsb (fun m => Nat.eqb (mb_client m) j && Nat.eqb (mb_chan m) ch) (s_members s) = true). { apply existsb_exists. exists m. split; auto. rewrite E1, E2, !Nat.eqb_refl. reflexivity. } congruence.
Qed.
Lemma join_event : forall e s s' j ch, live s -> undisturbed s' -> step e s = Ok tt s' -> ~ is_on s j ch -> is_on s' j ch ->
  exists i h c text b s1 s2, live s1 /\ undisturbed s1 /\ actions s s1 /\ client_of s1 i h c /\ Parse_Request i text s1 = Ok b s2 /\ actions s2 s' /\ ~ is_on s1 j ch /\ is_on s2 j ch /\
    (cl_type c = T_USER -> exists args m, says text "JOIN" args /\ j = h /\ In m (s_members s2) /\ mb_client m = j /\ mb_chan m = ch /\ by_join h s1 c (strtok "," (nth 0 args [])) (strtok "," (nth 1 args [])) s2 m).
Proof.
  intros e s s' j ch L U H N Y.
  assert (NQ : forall s s', live s -> also wf (byM (fun _ _ => False) (fun _ _ => True) s) s s' -> ~ is_on s j ch -> ~ is_on s' j ch).
  { intros x x' Lx F Nx (m & I & E1 & E2). apply Nx. destruct (F (live_wf _ Lx)) as [_ F1]. destruct (F1 byM_refl m I) as [[]|(m0 & M0 & G1 & G2 & _)]. exists m0. split; auto. split; congruence. }
  destruct (by_a_line (fun s => is_on s j ch)) with (e := e) (s := s) (s' := s') as (i & h & c & text & b & s1 & s2 & L1 & U1 & A1 & C & PR & A2 & N1 & Y1); auto.
  - intro x. apply is_on_dec.
  - intros x x' Lx Cx. apply NQ; auto. apply chore_rel. exact Cx.
  - intros ev x x' Lx Sx Cx. apply NQ; auto. revert Cx. apply (step_rel_silent (X := also wf (byM (fun _ _ => False) (fun _ _ => True) x)) ev Sx).
  - exists i, h, c, text, b, s1, s2. repeat (split; [assumption|]). intro T. destruct Y1 as (m & I & E1 & E2). subst j ch. destruct (join_line _ _ _ _ _ _ _ L1 U1 C T PR m I N1) as (args & Sa & J).
    exists args, m. split; auto. split; [destruct J as (? & ? & ? & _ & J & _); auto|]. auto.
Qed.

Lemma C15_line_aux : forall s i h c text b s', live s -> undisturbed s -> client_of s i h c -> cl_type c = T_USER -> Parse_Request i text s = Ok b s' ->
  forall j ch, ~ is_on s j ch -> is_on s' j ch -> j = h /\
  exists args n name k', says text "JOIN" args /\ nth_error (strtok "," (nth 0 args [])) n = Some name /\ exists_chan s' ch k' /\ same_name name (ch_name k') /\
  (forall k, exists_chan s ch k -> admitted s c ch k (nth_error (strtok "," (nth 1 args [])) n)).
Proof.
  intros s i h c text b s' L U C T H j ch N (m & I & <- & <-). destruct (join_line _ _ _ _ _ _ _ L U C T H m I N) as (args & Sa & n & name & k' & J1 & J2 & J3 & J4 & J5 & J6).
  split; auto. exists args, n, name, k'. unfold exists_chan. rewrite !lookup_assoc. repeat (split; [assumption|]). intros k K. rewrite lookup_assoc in K. unfold joined in J4. rewrite K in J4. tauto.
Qed.
Lemma C44_line_aux : forall s i h c text b s', live s -> undisturbed s -> client_of s i h c -> cl_type c = T_USER -> Parse_Request i text s = Ok b s' ->
  forall m, In m (s_members s') -> ~ is_on s (mb_client m) (mb_chan m) -> mb_client m = h /\ exists k', exists_chan s' (mb_chan m) k' /\
  match lookup (mb_chan m) (s_chans s) with
  | None => if Ascii.eqb (hd0 (ch_name k')) "+"%char then mb_modes m = [] else In "o"%char (mb_modes m) /\ forall x, In x (mb_modes m) -> x = "o"%char
  | Some k => forall x, In x (mb_modes m) -> x = "o"%char /\ In "P"%char (ch_modes k) /\ In "o"%char (cl_modes c) /\ cf_operchanpautoop (s_conf s) = true
  end.
Proof.
  intros s i h c text b s' L U C T H m I N. destruct (join_line _ _ _ _ _ _ _ L U C T H m I N) as (args & Sa & n & name & k' & J1 & J2 & J3 & J4 & J5 & J6).
  split; auto. exists k'. unfold exists_chan. split; [rewrite lookup_assoc; auto|]. rewrite lookup_assoc. unfold joined in J4. destruct (assoc (mb_chan m) (s_chans s)) as [k|]; [apply J4|]. destruct J4 as (_ & K1 & K2).
  assert (E : Ascii.eqb (hd0 (ch_name k')) "+" = true <-> hd0 name = "+"%char).
  { unfold same_name in J6. clear - J6. split.
    - intro E. apply Ascii.eqb_eq in E. destruct name as [|a n1]; destruct (ch_name k') as [|a' n2]; cbn in *; try discriminate. injection J6 as J6 _. subst a'. destruct a as [[] [] [] [] [] [] [] []]; vm_compute in J6; auto; discriminate.
    - intro E. apply Ascii.eqb_eq. destruct name as [|a n1]; destruct (ch_name k') as [|a' n2]; cbn in *; try discriminate. injection J6 as J6 _. subst a. destruct a' as [[] [] [] [] [] [] [] []]; vm_compute in J6; auto; discriminate. }
  destruct (Ascii.eqb (hd0 (ch_name k')) "+") eqn:P.
  - destruct (mb_modes m) as [|x r]; auto. exfalso. destruct (K2 x (or_introl eq_refl)) as [_ K3]. apply K3. apply E. auto.
  - split; [|intros x Ix; apply K2; auto]. destruct K1 as [K1|K1]; auto. apply E in K1. discriminate.
Qed.
