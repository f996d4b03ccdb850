(** MODE on channels (C18). *)
From Coq Require Import List Ascii String ZArith NArith Bool Lia Arith.
From Coq Require Import Relations RelationClasses.
From Verif Require Import Bytes Match MatchSpec MatchProofs Lists Hash ParseReq State Messages Monad Core Write Info Chan Mode Msg Login Oper Server Dispatch Conn.
From Verif Require Import Rel RelWrite RelInfo RelBase RelChan RelSrv RelInit RelKey RelCmd RelComp WF RelGone Frame Tree Inv1 Inv2 Inv4 Spec Observ Unch HandOper HandPrefix HandLine Frames Live Attrib HandGain HandUser HandChan HandJoin HandKick.
Import ListNotations.
Local Open Scope m_scope.

Lemma mode_add_keep : forall x l m, In x l -> In x (fst (mode_add l m)).
Proof. intros x l m H. unfold mode_add. destruct (strchr0 m l); cbn [fst]; auto. unfold strlcat. destruct (_ && _); auto. apply in_or_app. auto. Qed.
Lemma del_first_keep : forall x l m, In x l -> x <> m -> In x (del_first m l).
Proof. induction l as [|y l IH]; intros m H N; [destruct H|]. cbn [del_first]. destruct (Ascii.eqb_spec y m); [destruct H; [congruence|auto]|]. destruct H; [left; auto|right; auto]. Qed.
Lemma mode_del_keep : forall x l m, In x l -> x <> m -> In x (fst (mode_del l m)).
Proof. intros x l m H N. unfold mode_del. destruct (strchr0 m l); cbn [fst]; auto. apply del_first_keep; auto. Qed.

Section A.
Variables (s0 : state) (h : handle) (c : client) (ch : chandle).
Variable full : list bytes.
Let args : list bytes := tl full.
Let may (b : bool) (x : ascii) : Prop := may_set_mode s0 h c ch b x /\ asked args x.
Let mayp (j : handle) (x : ascii) : Prop := may_set_priv s0 h c ch x /\ asked args x /\ exists t, In t args /\ called s0 t j.
Let halfish := half_or_mighty s0 h c ch.
Record okc (k k' : channel) : Prop := mk_okc {
  oc_name : ch_name k' = ch_name k; oc_topic : ch_topic k' = ch_topic k;
  oc_may : may_change s0 h c ch args k k' /\ (ch_invites k' <> ch_invites k -> halfish) }.
Record okm (m m' : member) : Prop := mk_okm {
  om_client : mb_client m' = mb_client m; om_chan : mb_chan m' = mb_chan m; om_other : mb_chan m <> ch -> m' = m;
  om_priv : forall x, ~ (In x (mb_modes m) <-> In x (mb_modes m')) -> mayp (mb_client m) x }.
Record okI (s : state) : Prop := mk_okI {
  oi_wf : wf s; oi_conf : s_conf s = s_conf s0;
  oi_other : forall x, x <> ch -> assoc x (s_chans s) = assoc x (s_chans s0);
  oi_chan : exists k k', assoc ch (s_chans s0) = Some k /\ assoc ch (s_chans s) = Some k' /\ okc k k';
  oi_mb : Forall2 okm (s_members s0) (s_members s);
  oi_clients : s_clients s = s_clients s0;
  oi_cli : forall j d', assoc j (s_heap s) = Some d' -> exists d x, assoc j (s_heap s0) = Some d /\ d' = set_cl_cloaked x d }.
Definition X (s s' : state) : Prop := okI s -> okI s'.
#[local] Instance X_po : PreOrder X. Proof. split; unfold X; [intros s; auto|intros a b d; auto]. Qed.
#[local] Instance X_wr : WrSub X.
Proof.
  intros s s' H []. assert (W : wr s s') by (apply rt_step; auto). assert (WX : WrSub (pres wf)) by exact _. pose proof (WX _ _ H oi_wf0) as W1. destruct (wr_same _ _ W). destruct (wr_chans _ _ W) as [E1 E2]. apply mk_okI; [auto|congruence|intros x N; rewrite E1; auto|rewrite E1; auto|rewrite E2; auto|congruence|].
  intros j d' A. destruct (wr_cli_back _ _ _ _ W A) as (d1 & x & A1 & ->). destruct (oi_cli0 _ _ A1) as (d & y & A0 & ->). exists d, x. auto.
Qed.
Lemma okc_set : forall s f, okI s -> (forall k k', assoc ch (s_chans s) = Some k' -> okc k k' -> okc k (f k')) -> wf (set_chan ch f s) -> okI (set_chan ch f s).
Proof.
  intros s f [] K W. destruct oi_chan0 as (k & k' & A & A' & O). split; auto.
  - intros x N. cbn. rewrite assoc_aupd. destruct (Nat.eqb_spec ch x); [congruence|auto].
  - exists k, (f k'). split; auto. split; [|apply K; auto]. cbn. rewrite assoc_aupd, Nat.eqb_refl, A'. reflexivity.
Qed.
Lemma mode_memdec : forall (x : ascii) l, {In x l} + {~ In x l}.
Proof. intros. apply in_dec. apply ascii_dec. Qed.
Lemma okc_modes : forall k k' ms, okc k k' -> (forall x, In x ms -> ~ In x (ch_modes k') -> may true x) -> (forall x, In x (ch_modes k') -> ~ In x ms -> may false x) -> okc k (set_ch_modes ms k').
Proof.
  intros k k' ms [N T [[] O]] H1 H2. split; auto. split; [split|]; auto; cbn [ch_modes set_ch_modes].
  - intros x I NI. destruct (mode_memdec x (ch_modes k')); [apply mc_add; auto|apply H1; auto].
  - intros x I NI. destruct (mode_memdec x (ch_modes k')); [apply H2; auto|apply mc_del; auto].
Qed.
Lemma ModeAdd_X : forall x, may true x -> rel X (Channel_ModeAdd ch x).
Proof.
  intros x M s b s' H I. assert (W : pres wf s s') by (revert H; assert (R : rel (pres wf) (Channel_ModeAdd ch x)) by rel_auto; apply R). specialize (W (oi_wf _ I)).
  unfold Channel_ModeAdd in H. bd H as k s1 H1. apply chan_ok in H1. destruct H1 as [A ->]. destruct (mode_add (ch_modes k) x) as [ms bb] eqn:E. bd H as u s1 H1. apply ret_ok in H. destruct H as [_ ->].
  apply upd_chan_ok in H1. destruct H1 as (k1 & A1 & ->). rewrite A in A1. injection A1 as <-. apply okc_set; auto. intros k0 k' A' O. rewrite A in A'. injection A' as <-. replace ms with (fst (mode_add (ch_modes k) x)) by (rewrite E; reflexivity).
  apply okc_modes; auto.
  - intros y Y N. apply mode_add_In in Y. destruct Y as [Y| ->]; [contradiction|auto].
  - intros y Y N. exfalso. apply N. apply mode_add_keep. auto.
Qed.
Lemma ModeDel_X : forall x, may false x -> rel X (Channel_ModeDel ch x).
Proof.
  intros x M s b s' H I. assert (W : pres wf s s') by (revert H; assert (R : rel (pres wf) (Channel_ModeDel ch x)) by rel_auto; apply R). specialize (W (oi_wf _ I)).
  unfold Channel_ModeDel in H. bd H as k s1 H1. apply chan_ok in H1. destruct H1 as [A ->]. destruct (mode_del (ch_modes k) x) as [ms bb] eqn:E. bd H as mbs s1 H1. rdgets H1. bd H as o s1 H1. bd H as u s2 H2. apply ret_ok in H. destruct H as [_ ->].
  assert (S1 : exists o, s1 = set_s_odd o s). { unfold odd, whenM in H1. destruct (_ && _) in H1; [apply modify_ok in H1; subst; eexists; reflexivity|]. apply ret_ok in H1. destruct H1 as [_ ->]. exists (s_odd s). destruct s; reflexivity. }
  destruct S1 as (o1 & ->). apply upd_chan_ok in H2. destruct H2 as (k1 & A1 & ->). cbn in A1. rewrite A in A1. injection A1 as <-.
  assert (I1 : okI (set_s_odd o1 s)). { destruct I. split; auto. }
  apply okc_set; auto. intros k0 k' A' O. cbn in A'. rewrite A in A'. injection A' as <-. replace ms with (fst (mode_del (ch_modes k) x)) by (rewrite E; reflexivity).
  apply okc_modes; auto.
  - intros y Y N. exfalso. apply N. eapply mode_del_In; eauto.
  - intros y Y N. destruct (ascii_dec y x) as [-> |D]; auto. exfalso. apply N. apply mode_del_keep; auto.
Qed.
Lemma set_X : forall m f, rel (pres wf) m -> (forall s u s', m s = Ok u s' -> exists k, assoc ch (s_chans s) = Some k /\ s' = set_chan ch f s) -> (forall k k', okc k k' -> okc k (f k')) -> rel X (m : M unit).
Proof. intros m f R E K s u s' H I. pose proof (R _ _ _ H (oi_wf _ I)) as W. destruct (E _ _ _ H) as (k & A & ->). apply okc_set; auto. Qed.
Lemma SetKey_X : forall t, halfish -> In t args -> rel X (Channel_SetKey ch t).
Proof.
  intros t M IT. apply (set_X _ (set_ch_key (strlcpy CLIENT_PASS_LEN t))); [rel_auto| |].
  - intros s u s' H. apply upd_chan_ok in H. auto.
  - intros k k' [N T [[] O]]. split; auto. split; [split|]; auto. intro NK. split; auto. exists t. split; auto. cbn [ch_key set_ch_key]. unfold strlcpy. destruct (Nat.leb_spec CLIENT_PASS_LEN (List.length t)) as [LE|LE]; [reflexivity|]. symmetry. apply firstn_all2. unfold CLIENT_PASS_LEN in LE. lia.
Qed.
Lemma SetMax_X : forall t, halfish -> rel X (Channel_SetMaxUsers ch t).
Proof.
  intros t M. apply (set_X _ (set_ch_maxusers (t mod 18446744073709551616)%Z)); [rel_auto| |].
  - intros s u s' H. apply upd_chan_ok in H. auto.
  - intros k k' [N T [[] O]]. split; auto. split; [split|]; auto.
Qed.
Lemma lists_X : forall m, halfish -> rel (pres wf) m -> (forall s u s', m s = Ok u s' -> exists k f, assoc ch (s_chans s) = Some k /\ s' = set_chan ch f s /\ lop_chan k (f k)) -> rel X (m : M unit).
Proof.
  intros m M R E s u s' H I. pose proof (R _ _ _ H (oi_wf _ I)) as W. destruct (E _ _ _ H) as (k & f & A & -> & L). apply okc_set; auto. intros k0 k' A' O. rewrite A in A'. injection A' as <-. destruct O as [N T [[] O]].
  inversion L; (split; [cbn; auto|cbn; auto|split; [split|]; cbn; auto]).
Qed.
Lemma AddBan_X : forall mask who, halfish -> rel X (Channel_AddBan ch mask who).
Proof. intros mask who M. apply lists_X; auto; [rel_auto|]. intros s u s' H. unfold Channel_AddBan in H. bd H as t s1 H1. unfold now in H1. rdgets H1. apply upd_chan_ok in H. destruct H as (k & A & ->). do 2 eexists. split; eauto. split; [reflexivity|]. constructor; [constructor|apply noonce_add]. Qed.
Lemma AddExcept_X : forall mask who, halfish -> rel X (Channel_AddExcept ch mask who).
Proof. intros mask who M. apply lists_X; auto; [rel_auto|]. intros s u s' H. unfold Channel_AddExcept in H. bd H as t s1 H1. unfold now in H1. rdgets H1. apply upd_chan_ok in H. destruct H as (k & A & ->). do 2 eexists. split; eauto. split; [reflexivity|]. constructor; [constructor|apply noonce_add]. Qed.
Lemma AddInvite_X : forall mask o who, halfish -> rel X (Channel_AddInvite ch mask o who).
Proof. intros mask o who M. apply lists_X; auto; [rel_auto|]. intros s u s' H. unfold Channel_AddInvite in H. bd H as t s1 H1. unfold now in H1. rdgets H1. apply upd_chan_ok in H. destruct H as (k & A & ->). do 2 eexists. split; eauto. split; [reflexivity|]. constructor. constructor. Qed.
#[local] Hint Extern 0 (rel _ (Channel_AddBan _ _ _)) => apply AddBan_X; assumption : rel.
#[local] Hint Extern 0 (rel _ (Channel_AddExcept _ _ _)) => apply AddExcept_X; assumption : rel.
#[local] Hint Extern 0 (rel _ (Channel_AddInvite _ _ _ _)) => apply AddInvite_X; assumption : rel.
Lemma AddToList_X : forall what pref pattern, halfish -> rel X (Add_To_List what pref h ch pattern).
Proof. intros what pref pattern M. unfold Add_To_List. rel_auto. Qed.
Lemma DelFromList_X : forall what pref pattern, halfish -> rel X (Del_From_List what pref h ch pattern).
Proof.
  intros what pref pattern M. unfold Del_From_List. apply rel_bind; [rel_auto|intro k]. cbv zeta. destruct (negb _); [rel_auto|]. apply rel_bind; [|intro; rel_auto].
  apply lists_X; auto.
  - intros s u s' H W. apply upd_chan_ok in H. destruct H as (k1 & A & ->). assert (P : PS L_lists (pres wf)) by exact _. apply (P s); auto. eapply p_lists; eauto. destruct (Ascii.eqb what "I"); [|destruct (Ascii.eqb what "b")]; constructor; try constructor; apply noonce_del.
  - intros s u s' H. apply upd_chan_ok in H. destruct H as (k1 & A & ->). do 2 eexists. split; eauto. split; [reflexivity|]. cbv beta. destruct (Ascii.eqb what "I"); [|destruct (Ascii.eqb what "b")]; constructor; try constructor; apply noonce_del.
Qed.
Lemma okm_set : forall j ms mb l0 l, find (is_mb ch j) l = Some mb -> Forall2 okm l0 l -> (forall x, ~ (In x (mb_modes mb) <-> In x ms) -> mayp j x) -> Forall2 okm l0 (upd_mb ch j (set_mb_modes ms) l).
Proof.
  intros j ms mb l0 l F Fo M. revert F. induction Fo as [|m0 m l0 l O Fo IH]; cbn [find upd_mb]; intro F; [discriminate|]. destruct (is_mb ch j m) eqn:E.
  - injection F as <-. constructor; auto. destruct O. apply is_mb_pair in E. unfold mpair in E. injection E as E1 E2. split; cbn; auto.
    + intro N. congruence.
    + intros x N. destruct (mode_memdec x (mb_modes m0)); destruct (mode_memdec x (mb_modes m)); destruct (mode_memdec x ms); try (assert (EJ : mb_client m0 = j) by congruence; rewrite EJ; apply M; tauto); try (apply om_priv0; tauto); exfalso; tauto.
  - constructor; auto.
Qed.
Lemma UserMode_X : forall j x (b : bool), mayp j x -> rel X (if b then Channel_UserModeAdd ch j x else Channel_UserModeDel ch j x).
Proof.
  intros j x b M s r s' H I.
  assert (E : exists mb ms, find (is_mb ch j) (s_members s) = Some mb /\ s' = set_s_members (upd_mb ch j (set_mb_modes ms) (s_members s)) s /\ (ms = fst (mode_add (mb_modes mb) x) \/ ms = fst (mode_del (mb_modes mb) x))).
  { destruct b; [unfold Channel_UserModeAdd in H|unfold Channel_UserModeDel in H]; bd H as o s1 H1; unfold Get_Cl2Chan in H1; rdgets H1; bd H as mb s1 H1; apply nonnull_ok in H1; destruct H1 as [F ->];
    [destruct (mode_add (mb_modes mb) x) as [ms bb] eqn:E|destruct (mode_del (mb_modes mb) x) as [ms bb] eqn:E]; bd H as u s1 H1; apply modify_ok in H1; apply ret_ok in H; destruct H as [_ ->]; subst s1; exists mb, ms; (split; [auto|]); (split; [auto|]); [left|right]; rewrite E; reflexivity. }
  destruct E as (mb & ms & F & -> & Ems). destruct I. split; auto.
  - assert (R : rel (pres wf) (if b then Channel_UserModeAdd ch j x else Channel_UserModeDel ch j x)) by (destruct b; rel_auto). exact (R _ _ _ H oi_wf0).
  - cbn [s_members set_s_members]. eapply okm_set; eauto. intros y N. destruct (ascii_dec y x) as [-> |D]; auto. exfalso. apply N. destruct Ems as [-> | ->]; split; intro Y.
    + apply mode_add_keep; auto. + apply mode_add_In in Y. destruct Y; [auto|contradiction]. + apply mode_del_keep; auto. + eapply mode_del_In; eauto.
Qed.


Lemma okm_find : forall l0 l m, Forall2 okm l0 l -> In m l -> exists m0, In m0 l0 /\ okm m0 m.
Proof. intros l0 l m F. induction F as [|a b la lb O F IH]; intro I; [destruct I|]. destruct I as [<- |I]; [exists a; split; [left|]; auto|]. destruct (IH I) as (m0 & I0 & O0). exists m0. split; [right|]; auto. Qed.
Lemma okm_priv : forall s x, okI s -> has_priv s h ch x -> has_priv s0 h ch x \/ may_set_priv s0 h c ch x.
Proof.
  intros s x [] (m & I & E1 & E2 & IX). destruct (okm_find _ _ _ oi_mb0 I) as (m0 & I0 & []). destruct (mode_memdec x (mb_modes m0)).
  - left. exists m0. split; auto. split; [congruence|]. split; [congruence|auto].
  - right. eapply om_priv0. tauto.
Qed.
Hypothesis Huser : exists d, assoc h (s_heap s0) = Some d /\ cl_type d = T_USER.
Lemma okI_user : forall s d, okI s -> assoc h (s_heap s) = Some d -> cl_type d = T_USER.
Proof. intros s d [] A. destruct Huser as (d0 & A0 & T). destruct (oi_cli0 _ _ A) as (d1 & x & A1 & ->). rewrite A0 in A1. injection A1 as <-. exact T. Qed.
Lemma okI_called : forall s t j, okI s -> called s t j -> called s0 t j.
Proof. intros s t j [] (d & [I A] & N). rewrite lookup_assoc in A. destruct (oi_cli0 _ _ A) as (d0 & x & A0 & ->). exists d0. split; [split; [congruence|rewrite lookup_assoc; auto]|exact N]. Qed.
Variable is_oper : bool.
Hypothesis Hoper : is_oper = true -> mighty s0 c.
Hypothesis Hnoper : is_oper = false -> ~ mighty s0 c.
Record J (st : cmst) : Prop := mk_J { j_q : cm_owner st = true -> chan_owner s0 h ch; j_a : cm_admin st = true -> chan_admin s0 h ch;
  j_o : cm_op st = true -> chan_op s0 h ch; j_h : cm_halfop st = true -> half_op s0 h ch; j_rest : (0 <= cm_aarg st)%Z -> forall n, (cm_aarg st <= Z.of_nat n)%Z -> nth_error (cm_args st) n = nth_error full n;
  j_lt : (cm_aarg st < 0)%Z \/ (cm_marg st < cm_aarg st)%Z; j_marg : (1 <= cm_marg st)%Z; j_pos : forall x, In x (cm_pos st) -> asked args x }.
Lemma op_half : chan_op s0 h ch -> half_op s0 h ch.
Proof. intros [H|[H|H]]; [exists "q"%char|exists "a"%char|exists "o"%char]; split; auto; cbn; tauto. Qed.
Lemma J_op : forall st, J st -> any_op is_oper false st = true -> mighty s0 c \/ chan_op s0 h ch.
Proof.
  intros st [] H. unfold any_op in H. repeat (apply Bool.orb_true_iff in H; destruct H as [H|H]); try discriminate; auto.
  - right. left. apply j_q0; auto.
  - right. destruct (j_a0 H); [left|right; left]; auto.
Qed.
Lemma J_half : forall st, J st -> any_halfop is_oper false st = true -> halfish.
Proof. intros st K H. unfold any_halfop in H. apply Bool.orb_true_iff in H. destruct H as [H|H]; [destruct (J_op _ K H); [left|right; apply op_half]; auto|right; exact (j_h _ K H)]. Qed.
Lemma upd_nth_other : forall A f n (l : list A) m, n <> m -> nth_error (upd_nth n f l) m = nth_error l m.
Proof. intros A f n l. revert n. induction l as [|y l IH]; intros [|n] [|m] H; cbn; auto; [congruence|]. apply IH. congruence. Qed.
Lemma strongJ : forall st st', J st -> cm_owner st' = cm_owner st -> cm_admin st' = cm_admin st -> cm_op st' = cm_op st -> cm_halfop st' = cm_halfop st -> cm_marg st' = cm_marg st -> incl (cm_pos st') (cm_pos st) ->
  (cm_args st' = cm_args st /\ (cm_aarg st' = cm_aarg st \/ cm_aarg st' = -1 \/ (cm_aarg st' = cm_aarg st + 1 /\ cm_marg st < cm_aarg st)))%Z \/
  (cm_args st' = upd_nth (Z.to_nat (cm_aarg st)) (fun _ => []) (cm_args st) /\ cm_aarg st' = cm_aarg st + 1 /\ cm_marg st < cm_aarg st)%Z -> J st'.
Proof.
  intros st st' [] E1 E2 E3 E4 E5 E6 E7. split; auto; try (intro T; (apply j_q0 || apply j_a0 || apply j_o0 || apply j_h0); congruence).
  - intros P n LE. destruct E7 as [[-> [E|[E|[E E']]]]|(-> & E & E')].
    + apply j_rest0; lia.
    + lia.
    + apply j_rest0; lia.
    + rewrite upd_nth_other; [apply j_rest0; lia|]. intros <-. rewrite Z2Nat.id in LE; lia.
  - rewrite E5. destruct E7 as [[_ [E|[E|[E E']]]]|(_ & E & E')]; lia.
  - congruence.
Qed.
Ltac zz := repeat match goal with H : (_ <=? _)%Z = false |- _ => apply Z.leb_gt in H | H : (_ <? _)%Z = true |- _ => apply Z.ltb_lt in H end; cbn [cm_aarg cm_marg inc_count consume set_aarg] in *; lia.
Ltac sj st := apply (strongJ st); [assumption|reflexivity|reflexivity|reflexivity|reflexivity|reflexivity|apply incl_refl|
  first [left; split; [reflexivity|first [left; reflexivity|right; left; reflexivity|right; right; split; [reflexivity|zz]]] | right; split; [reflexivity|]; split; [reflexivity|zz]]].
Lemma J_arg : forall st, J st -> (cm_marg st < cm_aarg st)%Z -> (cm_aarg st < cm_argc st)%Z -> In (cm_arg st (cm_aarg st)) args.
Proof.
  intros st [] L1 L2. unfold cm_arg, cm_argc in *. specialize (j_rest0 ltac:(lia) (Z.to_nat (cm_aarg st)) ltac:(lia)).
  assert (L : Z.to_nat (cm_aarg st) < List.length (cm_args st)) by lia. pose proof (nth_error_nth' (cm_args st) ([] : bytes) L) as Q. rewrite Q in j_rest0. subst args. destruct full as [|a0 l]; [destruct (Z.to_nat (cm_aarg st)); discriminate j_rest0|]. destruct (Z.to_nat (cm_aarg st)) as [|n] eqn:EN; [lia|]. cbn [tl]. apply (nth_error_In l n). symmetry. exact j_rest0.
Qed.
Definition vok (v : verdict) : Prop :=
  match v with
  | V_Exit _ => True
  | V_Next _ st x _ t => J st /\ match x with None => True | Some x => match t with Some j => mayp j x | None => may (cm_set st) x end end
  end.
Ltac jgo H := repeat match type of H with
  | (if ?b then _ else _) _ = _ => destruct b eqn:?
  | match ?b with Some _ => _ | None => _ end _ = _ => destruct b eqn:?
  | ret _ _ = Ok _ _ => apply ret_ok in H; destruct H as [? ->]
  | (let _ := _ in _) _ = _ => cbv zeta in H
  | bind _ _ _ = Ok _ _ => let s1 := fresh "s1" in let a := fresh "a" in let H1 := fresh "H1" in bd H as a s1 H1
  | andM _ _ _ = Ok _ _ => fail 1
  end.
Lemma letter_NUL : forall origin command st, chan_letter h origin command ch is_oper false st NUL =
  (srv <- is_type h T_SERVER ;;
    if negb srv then
      ok <- IRC_WriteErrClient origin ERR_UNKNOWNMODE_MSG [aID origin; aC NUL; aChan ch] ;;
      ret (V_Next ok st None [] None)
    else ret (V_Next true st None [] None)).
Proof. reflexivity. Qed.
Lemma letter_vok : forall origin command st x s v s', chan_letter h origin command ch is_oper false st x s = Ok v s' -> J st -> okI s -> (x = NUL \/ asked args x) -> (cm_aarg st < cm_argc st)%Z -> vok v.
Proof.
  intros origin command st x s v s' H K U [-> |AX] RG.
  { rewrite letter_NUL in H. bd H as srv s1 H1. destruct (negb srv); [bd H as ok s2 H2|]; apply ret_ok in H; destruct H as [-> _]; cbn [vok]; auto. }
  unfold chan_letter in H.
  destruct (memb x (B "RsziVMmnNQt")) eqn:E1.
  { unfold letter_flag, deny_exit, deny_next in H. destruct (memb x (B "Rsz") && negb (any_op is_oper false st)) eqn:E2; [jgo H; subst; exact Logic.I|]. destruct (any_halfop is_oper false st) eqn:E3; [|jgo H; subst; cbn; auto].
    jgo H. subst. cbn [vok]. split; auto. split; auto. destruct (J_half _ K E3) as [M|M].
    - left. split; auto. apply memb_In in E1. cbn in E1 |- *. tauto.
    - apply Bool.andb_false_iff in E2. destruct E2 as [E2|E2].
      + right. left. split; auto. apply memb_In in E1. cbn in E1 |- *. assert (N : ~ In x (B "Rsz")) by (intro N; apply memb_In in N; congruence). cbn in N. tauto.
      + apply Bool.negb_false_iff in E2. destruct (memb x (B "Rsz")) eqn:E4.
        * apply memb_In in E4. destruct (J_op _ K E2) as [M2|M2]; [left|right; right; left]; split; auto. cbn in E4 |- *. tauto.
        * right. left. split; auto. apply memb_In in E1. cbn in E1 |- *. assert (N : ~ In x (B "Rsz")) by (intro N; apply memb_In in N; congruence). cbn in N. tauto. }
  assert (HL : forall b st' y, In y (B "kl") -> any_halfop is_oper false st' = true -> J st' -> asked args y -> may b y).
  { intros b st' y I A J1 AY. split; auto. destruct (J_half _ J1 A) as [M|M]; [left|right; left]; split; auto; cbn in I |- *; tauto. }
  destruct (Ascii.eqb_spec x "k").
  { subst x. unfold letter_k, deny_next, exit_unless_machine in H. jgo H; subst; cbn [vok]; auto; try (split; [sj st|auto]); try (apply (HL _ (inc_count st)); auto; cbn; auto).
    all: try (split; [destruct (_ <? _)%Z eqn:?; sj st|]; apply (HL _ (inc_count st)); auto; cbn; auto).
    all: try (sj st). }
  destruct (Ascii.eqb_spec x "l").
  { subst x. unfold letter_l, deny_next, exit_unless_machine in H. jgo H; subst; cbn [vok]; auto; try (split; [sj st|auto]); try (apply (HL _ (inc_count st)); auto; cbn; auto).
    all: try (sj st). }
  destruct (memb x (B "OP")) eqn:E2.
  { apply memb_In in E2. unfold letter_OP, deny_next in H. jgo H; subst; cbn [vok]; auto; split; auto; (split; [|auto]).
    - left. rewrite Bool.orb_false_r in *. split; auto. cbn in E2 |- *. tauto.
    - match goal with A : any_op _ _ _ = true |- _ => destruct (J_op _ K A) as [M|M] end; [left|right; right; right]; split; auto. cbn in E2 |- *. tauto. }
  destruct (memb x (B "qaohv")) eqn:E3.
  { apply memb_In in E3. unfold letter_user, deny_exit in H. rewrite !Bool.orb_false_r in H.
    destruct (Ascii.eqb x "q" && negb (is_oper || cm_owner st)) eqn:Q1; [jgo H; subst; exact Logic.I|].
    destruct (memb x (B "qa") && negb (is_oper || cm_owner st || cm_admin st)) eqn:Q2; [jgo H; subst; exact Logic.I|].
    destruct (memb x (B "qaoh") && negb (any_op is_oper false st)) eqn:Q3; [jgo H; subst; exact Logic.I|].
    jgo H; subst; cbn [vok]; auto; (split; [sj st|auto]).
    assert (CA : exists t, In t args /\ called s0 t h0).
    { exists (cm_arg st (cm_aarg st)). split.
      - apply J_arg; auto. zz.
      - apply Client_Search_ok in H1. destruct H1 as (_ & I & d & A & HI). eapply okI_called; [exact U|]. eapply has_id_called; eauto. }
    split; [|auto]. destruct (J_half _ K Heqb0) as [M|M]; [left; auto|]. destruct (Bool.bool_dec is_oper true) as [O|O]; [left; auto|]. right. apply Bool.not_true_is_false in O. rewrite O in Q1, Q2.
    assert (OP : In x (B "qaoh") -> chan_op s0 h ch). { intro I. apply memb_In in I. rewrite I in Q3. cbn [andb] in Q3. apply Bool.negb_false_iff in Q3. destruct (J_op _ K Q3) as [M2|M2]; auto. elim (Hnoper O M2). }
    cbn in E3. destruct E3 as [<-|[<-|[<-|[<-|[<-|[]]]]]].
    - right. right. right. split; auto. cbn in Q1. apply Bool.negb_false_iff in Q1. exact (j_q _ K Q1).
    - right. right. left. split; auto. cbn in Q2. apply Bool.negb_false_iff in Q2. apply Bool.orb_true_iff in Q2. destruct Q2 as [Q2|Q2]; [left; exact (j_q _ K Q2)|exact (j_a _ K Q2)].
    - right. left. split; [cbn; auto|]. apply OP. cbn. auto.
    - right. left. split; [cbn; auto|]. apply OP. cbn. auto.
    - left. auto. }
  destruct (memb x (B "Ibe")).
  { unfold letter_list in H. jgo H; subst; cbn [vok]; auto; (split; [sj st|auto]). }
  bd H as srv s1 H1. apply is_type_ok in H1. destruct H1 as (-> & d & A & ->). pose proof (okI_user _ _ U A) as T. rewrite T in H. cbn [ctype_eqb negb] in H. jgo H. subst. cbn [vok]. auto.
Qed.
Lemma letter_X : forall origin command st x, J st -> (x = NUL \/ asked args x) -> (cm_aarg st < cm_argc st)%Z -> rel X (chan_letter h origin command ch is_oper false st x).
Proof.
  intros origin command st x K [-> |AX] RG; [rewrite letter_NUL; rel_auto|]. unfold chan_letter.
  destruct (memb x (B "RsziVMmnNQt")) eqn:E1; [unfold letter_flag, deny_exit, deny_next, deny; rel_auto|].
  assert (HL : forall b st' y, In y (B "kl") -> any_halfop is_oper false st' = true -> J st' -> asked args y -> may b y).
  { intros b st' y I A J1 AY. split; auto. destruct (J_half _ J1 A) as [M|M]; [left|right; left]; split; auto; cbn in I |- *; tauto. }
  destruct (Ascii.eqb_spec x "k").
  { unfold letter_k, deny_next, deny, exit_unless_machine. apply rel_bind; [rel_auto|intro lim]. cbv zeta. destruct lim; [rel_auto|]. destruct (any_halfop is_oper false (inc_count st)) eqn:A; [|rel_auto].
    assert (M : may false "k") by (apply (HL _ (inc_count st)); [cbn; auto|auto|sj st|subst x; auto]). assert (M2 : halfish) by (apply (J_half (inc_count st)); [sj st|auto]).
    destruct (negb _); [rel_auto|]. destruct (_ <=? _)%Z eqn:LE; [rel_auto|]. destruct (_ || _) eqn:EB; [rel_auto|]. apply rel_bind; [unfold void; apply rel_bind; [apply ModeDel_X; auto|rel_auto]|intros]. apply rel_bind; [apply SetKey_X; auto|rel_auto].
    apply (J_arg (inc_count st)); [sj st|zz|exact RG]. }
  destruct (Ascii.eqb_spec x "l").
  { unfold letter_l, deny_next, deny, exit_unless_machine. apply rel_bind; [rel_auto|intro lim]. cbv zeta. destruct lim; [rel_auto|]. destruct (any_halfop is_oper false (inc_count st)) eqn:A; [|rel_auto].
    assert (M : may false "l") by (apply (HL _ (inc_count st)); [cbn; auto|auto|sj st|subst x; auto]). assert (M2 : halfish) by (apply (J_half (inc_count st)); [sj st|auto]).
    destruct (negb _); [rel_auto|]. destruct (_ <=? _)%Z; [rel_auto|]. destruct (_ || _)%Z; [rel_auto|]. apply rel_bind; [unfold void; apply rel_bind; [apply ModeDel_X; auto|rel_auto]|intros]. apply rel_bind; [apply SetMax_X; auto|rel_auto]. }
  destruct (memb x (B "OP")); [unfold letter_OP, deny_next, deny; rel_auto|].
  destruct (memb x (B "qaohv")); [unfold letter_user, deny_exit, deny; rel_auto|].
  destruct (memb x (B "Ibe")); [|rel_auto].
  unfold letter_list, deny. apply rel_bind; [rel_auto|intro lim]. cbv zeta. destruct lim; [rel_auto|]. destruct (_ <? _)%Z; [|rel_auto]. apply rel_bind; [|intro; rel_auto].
  destruct (any_halfop is_oper false (inc_count st)) eqn:A; [|rel_auto]. assert (M2 : halfish) by (apply (J_half (inc_count st)); [sj st|auto]). destruct (cm_set _); [apply AddToList_X; auto|apply DelFromList_X; auto].
Qed.
Lemma privs_J : forall st s st' s', chan_privs h ch is_oper false st s = Ok st' s' -> okI s -> J st -> s' = s /\ J st' /\ cm_aarg st' = cm_aarg st /\ cm_args st' = cm_args st.
Proof.
  intros st s st' s' H I K. unfold chan_privs in H. cbn [negb andb] in H. destruct is_oper eqn:O; cbn [negb] in H; [apply ret_ok in H; destruct H as [-> ->]; auto|].
  assert (NM := Hnoper eq_refl).
  assert (P : forall x b s1, In x (B "qaoh") -> Channel_UserHasMode ch h x s = Ok b s1 -> s1 = s /\ (b = true -> has_priv s0 h ch x \/ may_set_priv s0 h c ch x)).
  { intros x b s1 IX HX. assert (NN : x <> NUL) by (intros ->; cbn in IX; intuition discriminate). destruct (UserHasMode_iff _ _ _ _ _ _ (oi_wf _ I) HX) as (-> & _ & Q). split; auto. intro T. apply (okm_priv s); [auto|apply Q; auto]. }
  bd H as q s1 H1. apply P in H1; [|cbn; auto]. destruct H1 as [-> Hq]. bd H as a s1 H1. apply P in H1; [|cbn; auto]. destruct H1 as [-> Ha]. bd H as o s1 H1. apply P in H1; [|cbn; auto]. destruct H1 as [-> Ho]. bd H as hh s1 H1. apply P in H1; [|cbn; auto]. destruct H1 as [-> Hh].
  apply ret_ok in H. destruct H as [-> ->]. split; auto. split; [|split; reflexivity]. destruct K. split; cbn; auto; intro T; apply Bool.orb_true_iff in T; destruct T as [T|T]; auto.
  - destruct (Hq T) as [P1|[[_ P1]|[[E _]|[[E _]|[[E _]|[_ P1]]]]]]; auto; try (elim (NM P1)); try discriminate. cbn in E. intuition discriminate.
  - destruct (Ha T) as [P1|[[_ P1]|[[E _]|[[E _]|[[_ P1]|[E _]]]]]]; auto; try (elim (NM P1)); try discriminate; [right; auto|]. cbn in E. intuition discriminate.
  - destruct (Ho T) as [P1|[[_ P1]|[[E _]|[[_ P1]|[[E _]|[E _]]]]]]; auto; try (elim (NM P1)); try discriminate. right. right. auto.
  - destruct (Hh T) as [P1|[[_ P1]|[[E _]|[[_ P1]|[[E _]|[E _]]]]]]; auto; try (elim (NM P1)); try discriminate; [exists "h"%char; split; [cbn; auto|auto]|]. apply op_half. auto.
Qed.
Lemma apply_X : forall origin st x a t, match t with Some j => mayp j x | None => may (cm_set st) x end -> rel X (chan_apply origin ch st x a t).
Proof.
  intros origin st x a t K. unfold chan_apply. destruct t as [t|].
  - apply rel_bind; [rel_auto|intro m]. destruct (negb m); [rel_auto|]. apply rel_bind; [apply UserMode_X; auto|intro r; rel_auto].
  - apply rel_bind; [destruct (cm_set st); [apply ModeAdd_X|apply ModeDel_X]; auto|intro r; rel_auto].
Qed.
Lemma apply_J : forall origin st x a t s o s', chan_apply origin ch st x a t s = Ok o s' -> J st -> match o with Some st' => J st' | None => True end.
Proof.
  intros origin st x a t s o s' H K. unfold chan_apply in H.
  assert (KF : forall st', J st' -> J (match a with [] => st' | _ => add_arg a st' end)) by (intros st' K'; destruct a; [auto|sj st']).
  destruct t as [t|].
  - bd H as m s1 H1. destruct (negb m); [bd H as ok s2 H2; apply ret_ok in H; destruct H as [-> _]; destruct ok; auto|]. bd H as r s2 H2. destruct r; [bd H as id s3 H3|]; apply ret_ok in H; destruct H as [-> _]; apply KF; auto. sj st.
  - bd H as r s1 H1. apply ret_ok in H. destruct H as [-> _]. apply KF. destruct r; auto. sj st.
Qed.
Lemma advance_J : forall st s o s', chan_advance st s = Ok o s' -> J st -> s' = s /\ match o with Some st' => J st' | None => True end.
Proof.
  intros st s o s' H K. unfold chan_advance in H. bd H as pos s1 H1. assert (E : s1 = s). { destruct (cm_skip st); [apply ret_ok in H1; tauto|]. destruct (cm_pos st); [discriminate|apply ret_ok in H1; tauto]. } subst s1.
  cbv zeta in H. destruct pos as [|y pos].
  - destruct (cm_aarg st <? 0)%Z eqn:LT; [apply ret_ok in H; destruct H as [-> ->]; auto|]. destruct K. apply Z.ltb_ge in LT. assert (LL : (cm_marg st < cm_aarg st)%Z) by lia. pose proof LL as LB. apply Z.ltb_lt in LB. rewrite LB in H.
    destruct (cm_argc st <=? cm_aarg st)%Z eqn:LC; apply ret_ok in H; destruct H as [-> ->]; split; auto. apply Z.leb_gt in LC.
    assert (IA : In (cm_arg st (cm_aarg st)) args) by (apply J_arg; auto; split; auto).
    split; auto; cbn [cm_aarg cm_args cm_marg cm_pos].
    + intros P n LE. destruct (_ <? _)%Z in P, LE; [|lia]. apply j_rest0; lia.
    + match goal with |- (((if ?b then _ else _) < 0) \/ _)%Z => destruct b end; lia.
    + lia.
    + intros x IX. eexists. split; [exact IA|exact IX].
  - apply ret_ok in H; destruct H as [-> ->]; split; auto. destruct K. split; auto. cbn [cm_pos]. intros x IX. apply j_pos0. destruct (cm_skip st); [apply ret_ok in H1; destruct H1 as [<- _]; auto|]. destruct (cm_pos st); [discriminate|]. apply ret_ok in H1. destruct H1 as [<- _]. right. auto.
Qed.
Lemma modes_X : forall origin command n st s r s', chan_modes h origin command ch is_oper false n st s = Ok r s' -> J st -> okI s -> okI s'.
Proof.
  intros origin command n. induction n as [|n IH]; intros st s r s' H K I; [discriminate|]. cbn [chan_modes] in H.
  bd H as nx s1 H1. apply advance_J in H1; auto. destruct H1 as [-> K1]. destruct nx as [st1|]; [|apply ret_ok in H; destruct H as [_ ->]; auto]. cbv zeta in H.
  destruct (plusminus _); [eapply IH; eauto; sj st1|].
  assert (K2 : J (if (cm_argc st1 <=? cm_aarg st1)%Z then set_aarg (-1) st1 else st1)) by (destruct (_ <=? _)%Z; auto; sj st1).
  assert (RG : (cm_aarg (if (cm_argc st1 <=? cm_aarg st1)%Z then set_aarg (-1) st1 else st1) < cm_argc (if (cm_argc st1 <=? cm_aarg st1)%Z then set_aarg (-1) st1 else st1))%Z) by (destruct (_ <=? _)%Z eqn:LE; [unfold cm_argc; cbn; lia|apply Z.leb_gt in LE; exact LE]).
  revert H. generalize dependent (if (cm_argc st1 <=? cm_aarg st1)%Z then set_aarg (-1) st1 else st1). intros st2 K2 RG H.
  assert (AX : hd0 (cm_pos st1) = NUL \/ asked args (hd0 (cm_pos st1))) by (destruct (cm_pos st1) as [|y p] eqn:EP; [left; reflexivity|right; apply (j_pos _ K1); rewrite EP; left; reflexivity]).
  bd H as st3 s2 H2. apply privs_J in H2; auto. destruct H2 as (-> & K3 & Z1 & Z2). assert (RG3 : (cm_aarg st3 < cm_argc st3)%Z) by (unfold cm_argc in *; congruence). bd H as v s2 H2. pose proof (letter_X _ _ _ _ K3 AX RG3 _ _ _ H2 I) as I2. pose proof (letter_vok _ _ _ _ _ _ _ H2 K3 I AX RG3) as V.
  destruct v as [ok|ok st4 x a t]; [apply ret_ok in H; destruct H as [_ ->]; auto|]. destruct V as [K4 V]. destruct (negb ok); [apply ret_ok in H; destruct H as [_ ->]; auto|]. destruct x as [x|]; [|eapply IH; eauto].
  bd H as o s3 H3. pose proof (apply_X _ _ _ a _ V _ _ _ H3 I2) as I3. pose proof (apply_J _ _ _ _ _ _ _ _ H3 K4) as K5. destruct o as [st5|]; [eapply IH; eauto|apply ret_ok in H; destruct H as [_ ->]; auto].
Qed.
End A.

#[export] Instance eq_KR : KR eq. Proof. split; congruence. Qed.
Lemma Channel_Mode_X : forall h c ch req s b s', wf s -> assoc h (s_heap s) = Some c -> cl_type c = T_USER -> (exists k, assoc ch (s_chans s) = Some k) ->
  Channel_Mode h req h ch s = Ok b s' -> okI s h c ch (rq_args req) s'.
Proof.
  intros h c ch req s b s' W A T (k & KA) H. pose proof (X_po s h c ch (rq_args req)) as PO. pose proof (X_wr s h c ch (rq_args req)) as WX.
  assert (I0 : okI s h c ch (rq_args req) s).
  { split; auto.
    - exists k, k. split; auto. split; auto. split; auto. split; [split|]; intros; try contradiction; try congruence.
    - clear. induction (s_members s); constructor; auto. split; auto. intros x N. exfalso. tauto.
    - intros j d A'. exists d, (cl_cloaked d). split; auto. destruct d; reflexivity. }
  assert (FIN : forall (m : M bool) b s', rel (X s h c ch (rq_args req)) m -> m s = Ok b s' -> okI s h c ch (rq_args req) s') by (intros m b0 s0 R H0; exact (R _ _ _ H0 I0)).
  unfold Channel_Mode in H. bd H as name s1 H1. same H1. destruct (Ascii.eqb (hd0 name) "+"); [eapply FIN; [|exact H]; rel_auto|].
  destruct (argc req <=? 1); [eapply FIN; [|exact H]; rel_auto|].
  bd H as op s1 H1. apply HasMode_ok in H1. destruct H1 as (-> & c1 & A1 & ->). rewrite A in A1. injection A1 as <-.
  bd H as ocm s1 H1. unfold cf in H1. rdgets H1. cbv zeta in H.
  bd H as ty s1 H1. apply Client_Type_ok in H1. destruct H1 as (-> & c1 & A1 & ->). rewrite A in A1. injection A1 as <-. rewrite T in H. cbn [ctype_eqb orb] in H.
  bd H as mem s1 H1. same H1. destruct (negb mem && _ && _); [eapply FIN; [|exact H]; rel_auto|].
  bd H as r s1 H1. destruct r as [ok st]. assert (I1 : okI s h c ch (rq_args req) s1).
  { eapply (modes_X s h c ch (rq_args req)); [| | |exact H1| |exact I0].
    - exists c. auto.
    - intro E. apply andb_true_iff in E. destruct E as [E1 E2]. split; auto. apply strchr0_In in E1; auto. discriminate.
    - intros E [M1 M2]. apply andb_false_iff in E. destruct E as [E|E]; [|congruence]. apply strchr0_iff in M2; [congruence|discriminate].
    - split; cbn [cm_owner cm_admin cm_op cm_halfop cm_args cm_aarg cm_marg cm_pos]; try discriminate; auto; [destruct (2 <? argc req)%nat; lia|]. intros x IX. unfold arg in IX. destruct (rq_args req) as [|a0 [|a1 l]]; [destruct IX|destruct IX|]. exists a1. split; [left; reflexivity|exact IX]. }
  assert (R : rel (X s h c ch (rq_args req)) (chan_modes_reply h h ch (cm_modes st) (cm_astr st) ok)) by (unfold chan_modes_reply; rel_auto).
  exact (R _ _ _ H I1).
Qed.
Lemma IRC_MODE_user : forall h req s b s' c, wf s -> assoc h (s_heap s) = Some c -> cl_type c = T_USER -> h <> This_Server -> (forall p, rq_prefix req = Some p -> Client_Search p s = Ok (Some h) s) ->
  IRC_MODE h req s = Ok b s' -> (also wf (byC eq s) s s' /\ also wf (byM (fun _ _ => False) eq s) s s') \/
  exists ch k, assoc ch (s_chans s) = Some k /\ same_name (arg req 0) (ch_name k) /\ okI s h c ch (rq_args req) s'.
Proof.
  intros h req s b s' c W A T NT PF H. unfold IRC_MODE, with_sender in H. bd H as sv s1 H1. apply is_type_ok in H1. destruct H1 as (-> & c1 & A1 & ->). rewrite A in A1. injection A1 as <-. rewrite T in H. cbn [ctype_eqb] in H.
  bd H as cl s1 H1. assert (E : cl = h /\ s1 = s).
  { destruct (rq_prefix req) as [p|]; [|apply ret_ok in H1; auto]. bd H1 as o s2 H2. rewrite (PF _ eq_refl) in H2. injection H2 as <- <-. apply ret_ok in H1. destruct H1 as [-> ->]. unfold oheq, heq. destruct (Nat.eqb_spec h This_Server); [contradiction|auto]. }
  destruct E as [-> ->]. clear H1. cbv zeta in H. bd H as vn s1 H1. same H1. bd H as t s1 H1. assert (s1 = s) by (destruct vn; [apply Client_Search_ok in H1; tauto|apply ret_ok in H1; tauto]). subst s1. clear H1.
  bd H as ch s1 H1. assert (E : s1 = s /\ match ch with Some ch => exists k, assoc ch (s_chans s) = Some k /\ same_name (arg req 0) (ch_name k) | None => True end) by (destruct (valid_chan (arg req 0)); [apply ChSearch_ok in H1; auto|apply ret_ok in H1; destruct H1 as [-> ->]; auto]).
  destruct E as [-> E]. destruct t as [t|].
  - left. split; [assert (R : rel (also wf (byC eq s)) (Client_Mode h req h t)) by rel_auto|assert (R : rel (also wf (byM (fun _ _ => False) eq s)) (Client_Mode h req h t)) by rel_auto]; exact (R _ _ _ H).
  - destruct ch as [ch|].
    + right. destruct E as (k & KA & N). exists ch, k. split; auto. split; auto. eapply Channel_Mode_X; eauto.
    + left. destruct vn; (split; xlast H).
Qed.

(** the settings that MODE changes are the same *)
Definition settled (k k' : channel) : Prop := ch_name k' = ch_name k /\ ch_modes k' = ch_modes k /\ ch_key k' = ch_key k /\ ch_maxusers k' = ch_maxusers k /\
  (noonce (ch_bans k) /\ noonce (ch_excepts k) -> ch_bans k' = ch_bans k /\ ch_excepts k' = ch_excepts k).
#[export] Instance settled_KR : KR settled.
Proof.
  split; [intro k; repeat split; auto|]. intros a b d (A1 & A2 & A3 & A4 & A5) (B1 & B2 & B3 & B4 & B5). unfold settled. repeat (split; [congruence|]). intro N. destruct (A5 N) as [E1 E2]. rewrite <- E1, <- E2 in N. destruct (B5 N). split; congruence.
Qed.
#[export] Instance settled_topic : KS L_topic settled. Proof. intros k k' H. inversion H; subst. match goal with J : ctopic _ _ |- _ => inversion J; subst end. repeat split; auto. Qed.
#[export] Instance settled_check : KS L_check settled.
Proof.
  intros k k' H. inversion H; subst. match goal with J : chk_chan _ _ |- _ => inversion J; subst end; (split; [reflexivity|]; split; [reflexivity|]; split; [reflexivity|]; split; [reflexivity|]; intros [N1 N2]; cbn [ch_bans ch_excepts set_ch_bans set_ch_excepts set_ch_invites]; try rewrite noonce_check; auto).
Qed.
#[export] Instance settled_useinv : KS L_useinv settled. Proof. intros k k' H. inversion H; subst. match goal with J : use_chan _ _ |- _ => inversion J; subst end. repeat split; auto. Qed.
#[export] Instance settled_addinv : KS L_addinv settled. Proof. intros k k' H. inversion H; subst. match goal with J : inv_chan _ _ |- _ => inversion J; subst end. repeat split; auto. Qed.
#[export] Instance settled_keyfile : KS L_keyfile settled. Proof. intros k k' H. inversion H; subst. repeat split; auto. Qed.
Lemma uothers_settled : forall s0, uothers (also wf (byC settled s0)) ["JOIN"; "MODE"]%string.
Proof. intro s0. uothers_tac. Qed.
Lemma uothers_privs : forall s0, uothers (also wf (byM (fun _ _ => False) eq s0)) ["JOIN"; "MODE"]%string.
Proof. intro s0. uothers_tac. Qed.
Lemma JOIN_settled : forall h req s b s' c, wf s -> ichan s -> assoc h (s_heap s) = Some c -> fits c -> cl_id c <> [] -> IRC_JOIN h req s = Ok b s' ->
  forall ch k k', assoc ch (s_chans s) = Some k -> assoc ch (s_chans s') = Some k' -> settled k k'.
Proof.
  intros h req s b s' c W IC A F NI H ch k k' K K'. unfold IRC_JOIN, with_sender in H. bd H as srv s1 H1. apply is_type_ok in H1. destruct H1 as (-> & c1 & A1 & ->). rewrite A in A1. injection A1 as <-. rewrite (fi_type _ F) in H. cbn [ctype_eqb] in H.
  assert (FF : also wf (byC settled s) s s' -> settled k k').
  { intro X. destruct (X W) as [_ X1]. destruct (X1 byC_refl) as (_ & X2). destruct (X2 ch k' (wf_chlt _ _ _ W K) K') as (k0 & A0 & S). rewrite K in A0. injection A0 as <-. exact S. }
  destruct (_ && _) in H.
  - apply FF. assert (R : rel (also wf (byC settled s)) (part_from_all_channels h h)) by rel_auto. exact (R _ _ _ H).
  - destruct (strtok "," (arg req 0)) as [|n0 chans] eqn:E; [apply FF; xlast H|].
    fold (key_list req) in H. eapply (join_loop_ok h s c (n0 :: chans)) in H; [|exact W|exact IC|apply fw_refl|exact A|apply looks_refl|exact F|exact NI|].
    + destruct H as (CK & _). destruct (CK _ _ K) as (k1 & A1 & []). rewrite K' in A1. injection A1 as <-. repeat split; auto.
    + intros t It. unfold key_list in It. destruct (1 <? argc req); [|destruct It]. eapply strtok_ne; exact It.
Qed.

Lemma prepared_facts : forall s s1, prepared s s1 -> s_members s1 = s_members s /\ s_chans s1 = s_chans s /\ s_conf s1 = s_conf s /\ s_clients s1 = s_clients s /\
  (forall j d, assoc j (s_heap s1) = Some d -> exists d0 x, assoc j (s_heap s) = Some d0 /\ d = set_cl_cloaked x d0) /\ (forall p o, Client_Search p s = Ok o s -> Client_Search p s1 = Ok o s1).
Proof.
  intros s s1 (s2 & W2 & ->). destruct (wr_chans _ _ W2) as [E3 E4]. destruct (wr_same _ _ W2). do 4 (split; [cbn; auto|]). split.
  - intros j d A. cbn in A. destruct (wr_cli_back _ _ _ _ W2 A) as (d9 & y & D0 & ->). eauto.
  - intros p o S. eapply ks_Client_Search; [|exact S]. eapply prepared_X; [exact _..|exists s2; auto].
Qed.
Definition unsettled (s : state) (h : handle) (c : client) (ch : chandle) (text : bytes) (k k' : channel) : Prop :=
  exists name args, says text "MODE" (name :: args) /\ same_name name (ch_name k) /\ may_change s h c ch args k k'.
Lemma mode_setup : forall s i h c text b s', live s -> undisturbed s -> client_of s i h c -> cl_type c = T_USER ->
  forall cmd req s1, command_run s i h c text cmd req s1 b s' -> cm_name cmd = "MODE"%string ->
  (also wf (byC eq s1) s1 s' /\ also wf (byM (fun _ _ => False) eq s1) s1 s') \/
  exists ch k name args z, says text "MODE" (name :: args) /\ assoc ch (s_chans s) = Some k /\ same_name name (ch_name k) /\ okI s1 h (set_cl_cloaked z c) ch (name :: args) s'.
Proof.
  intros s i h c text b s' L U C T cmd req s1 R E. pose proof (live_wf _ L) as W. destruct (prepared_facts _ _ (cr_prep _ _ _ _ _ _ _ _ _ _ R)) as (P1 & P2 & P3 & P4 & P5 & P6).
  pose proof (prepared_X (pres wf) _ _ _ _ _ (cr_prep _ _ _ _ _ _ _ _ _ _ R) W) as W1.
  pose proof (prepared_quiet _ _ (cr_prep _ _ _ _ _ _ _ _ _ _ R)) as Q. pose proof C as [_ C2]. rewrite lookup_assoc in C2. destruct (qu_cli _ _ Q _ _ C2) as (c1 & A1 & L1 & _).
  pose proof (cr_run _ _ _ _ _ _ _ _ _ _ R) as RUN. rewrite (cmd_MODE _ (cr_in _ _ _ _ _ _ _ _ _ _ R) E) in RUN. cbn [cm_fun] in RUN.
  destruct L1 as [x ->]. eapply (IRC_MODE_user h req s1 b s' (set_cl_cloaked x c)) in RUN; auto.
  - destruct RUN as [RUN|(ch & k & K1 & K2 & K3)]; [left; exact RUN|right].
    pose proof (cr_min _ _ _ _ _ _ _ _ _ _ R) as MI. rewrite (cmd_MODE _ (cr_in _ _ _ _ _ _ _ _ _ _ R) E) in MI. cbn in MI. unfold argc, arg in *. destruct (rq_args req) as [|a0 l] eqn:RA; [cbn in MI; lia|].
    destruct (cr_parse _ _ _ _ _ _ _ _ _ _ R) as (p & PL). exists ch, k, a0, l, x. split; [exists p, (rq_command req); rewrite <- RA; split; auto; pose proof (cr_name _ _ _ _ _ _ _ _ _ _ R) as NM; rewrite E in NM; exact NM|].
    split; [congruence|]. split; [exact K2|]. exact K3.
  - intros ->. destruct (tr_me _ (live_itree _ L U)) as (cm & X1 & X2 & _). congruence.
  - intros p RP. apply P6. exact (own_prefix _ _ _ _ _ (live_itree _ L U) C ltac:(congruence) (cr_pre _ _ _ _ _ _ _ _ _ _ R) p RP).
Qed.
Lemma mode_line : forall s i h c text b s', live s -> undisturbed s -> client_of s i h c -> cl_type c = T_USER -> Parse_Request i text s = Ok b s' ->
  forall ch k k', exists_chan s ch k -> exists_chan s' ch k' ->
  (ch_modes k' = ch_modes k /\ ch_key k' = ch_key k /\ ch_maxusers k' = ch_maxusers k /\ ch_bans k' = ch_bans k /\ ch_excepts k' = ch_excepts k) \/ unsettled s h c ch text k k'.
Proof.
  intros s i h c text b s' L U C T H ch k k' K K'. pose proof (live_wf _ L) as W. unfold exists_chan in K, K'. rewrite lookup_assoc in K, K'.
  assert (ST : settled k k' -> ch_modes k' = ch_modes k /\ ch_key k' = ch_key k /\ ch_maxusers k' = ch_maxusers k /\ ch_bans k' = ch_bans k /\ ch_excepts k' = ch_excepts k).
  { intros (_ & A1 & A2 & A3 & A4). destruct (A4 (kg_once _ _ _ (ic_good _ (live_ichan _ L) _ _ K))). auto. }
  assert (FF : forall s0, s_chans s0 = s_chans s -> wf s0 -> also wf (byC settled s0) s0 s' -> settled k k').
  { intros s0 E W0 X. destruct (X W0) as [_ X1]. destruct (X1 byC_refl) as (_ & X2). rewrite <- E in K. destruct (X2 ch k' (wf_chlt _ _ _ W0 K) K') as (k0 & A0 & S). rewrite K in A0. injection A0 as <-. exact S. }
  destruct (user_line _ _ _ _ _ _ _ _ _ _ _ _ _ (uothers_settled s) C T H) as [X|(cmd & req & s1 & R & E & X)]; [left; apply ST; eapply FF; eauto|].
  destruct (prepared_facts _ _ (cr_prep _ _ _ _ _ _ _ _ _ _ R)) as (P1 & P2 & P3 & P4 & P5 & P6). destruct (prepared_X (also wf ichan) _ _ _ _ _ (cr_prep _ _ _ _ _ _ _ _ _ _ R) W) as [W1 IC1]. specialize (IC1 (live_ichan _ L)).
  cbn [existsb] in E. rewrite !orb_true_iff in E. destruct E as [E|[E|E]]; [| |discriminate E]; apply String.eqb_eq in E.
  - left. apply ST. pose proof (cr_run _ _ _ _ _ _ _ _ _ _ R) as RUN. rewrite (cmd_JOIN _ (cr_in _ _ _ _ _ _ _ _ _ _ R) E) in RUN. cbn [cm_fun] in RUN.
    pose proof (prepared_quiet _ _ (cr_prep _ _ _ _ _ _ _ _ _ _ R)) as Q. destruct (user_fits _ _ _ _ L U C T) as [FI NI]. pose proof C as [_ C2]. rewrite lookup_assoc in C2. destruct (qu_cli _ _ Q _ _ C2) as (c1 & A1 & L1). destruct (looks_modes _ _ _ _ L1) as (_ & L2 & _).
    eapply (JOIN_settled h req s1); eauto; [eapply fits_looks; eauto|congruence|congruence].
  - destruct (mode_setup _ _ _ _ _ _ _ L U C T _ _ _ R E) as [[X1 _]|(ch0 & k0 & name & args & z & S1 & S2 & S3 & S4)].
    + left. apply ST. destruct (X1 W1) as [_ X2]. destruct (X2 byC_refl) as (_ & X3). rewrite <- P2 in K. destruct (X3 ch k' (wf_chlt _ _ _ W1 K) K') as (k9 & A0 & ->). rewrite K in A0. injection A0 as <-. apply kr_refl.
    + destruct S4. destruct (Nat.eq_dec ch ch0) as [-> |NE].
      * right. destruct oi_chan0 as (k1 & k2 & B1 & B2 & []). rewrite P2, K in B1. injection B1 as <-. rewrite K' in B2. injection B2 as <-. rewrite K in S2. injection S2 as <-. exists name, args. split; auto. split; auto. destruct oc_may0 as [OM _].
        destruct OM. assert (E1 : forall x y, may_set_mode s1 h c ch0 x y -> may_set_mode s h c ch0 x y) by (intros x y; unfold may_set_mode, mighty, half_op, chan_op, has_priv; rewrite P1, P3; auto).
        assert (E2 : half_or_mighty s1 h c ch0 -> half_or_mighty s h c ch0) by (unfold half_or_mighty, mighty, half_op, has_priv; rewrite P1, P3; auto).
        split; auto.
        -- intros x Y N. destruct (mc_add x Y N). auto.
        -- intros x Y N. destruct (mc_del x Y N). auto.
        -- intro N. destruct (mc_key N). auto.
      * left. apply ST. rewrite oi_other0, P2, K in K'; auto. injection K' as <-. apply kr_refl.
Qed.
Lemma priv_line : forall s i h c text b s', live s -> undisturbed s -> client_of s i h c -> cl_type c = T_USER -> Parse_Request i text s = Ok b s' ->
  forall j ch x, is_on s j ch -> is_on s' j ch -> ~ (has_priv s j ch x <-> has_priv s' j ch x) ->
  exists k name args nick, says text "MODE" (name :: args) /\ exists_chan s ch k /\ same_name name (ch_name k) /\ In nick args /\ called s nick j /\ asked args x /\ may_set_priv s h c ch x.
Proof.
  intros s i h c text b s' L U C T H j ch x O O' N. pose proof (live_wf _ L) as W.
  assert (W' : wf s'). { assert (R : rel (pres wf) (Parse_Request i text)) by (apply Parse_Request_rel). exact (R _ _ _ H W). }
  assert (SAME : (forall m m', In m (s_members s) -> In m' (s_members s') -> mpair m = mpair m' -> mpair m = (j, ch) -> mb_modes m = mb_modes m') -> False).
  { intro SM. apply N. destruct O as (m & I & E1 & E2). destruct O' as (m' & I' & E1' & E2'). assert (EM : mb_modes m = mb_modes m') by (apply SM; auto; unfold mpair; rewrite E1, E2; [rewrite E1', E2'|]; reflexivity).
    split; intros (m1 & I1 & F1 & F2 & F3).
    - assert (m1 = m) by (eapply mb_unique; [exact W|..]; first [assumption|congruence]). subst m1. exists m'. repeat split; auto. congruence.
    - assert (m1 = m') by (eapply mb_unique; [exact W'|..]; first [assumption|congruence]). subst m1. exists m. repeat split; auto. congruence. }
  assert (FF : forall s0, s_members s0 = s_members s -> wf s0 -> also wf (byM (fun _ _ => False) eq s0) s0 s' -> False).
  { intros s0 E0 W0 X. apply SAME. intros m m' I I' EP _. destruct (X W0) as [_ X1]. destruct (X1 byM_refl m' I') as [[]|(m0 & I0 & G1 & G2 & G3)]. rewrite E0 in I0. unfold mpair in EP. injection EP as EP1 EP2. assert (m0 = m) by (eapply mb_unique; [exact W|..]; first [assumption|congruence]). subst m0. auto. }
  destruct (user_line _ _ _ _ _ _ _ _ _ _ _ _ _ (uothers_privs s) C T H) as [X|(cmd & req & s1 & R & E & X)]; [exfalso; eapply FF; eauto|].
  destruct (prepared_facts _ _ (cr_prep _ _ _ _ _ _ _ _ _ _ R)) as (P1 & P2 & P3 & P4 & P5 & P6). destruct (prepared_X (also wf ichan) _ _ _ _ _ (cr_prep _ _ _ _ _ _ _ _ _ _ R) W) as [W1 IC1]. specialize (IC1 (live_ichan _ L)).
  cbn [existsb] in E. rewrite !orb_true_iff in E. destruct E as [E|[E|E]]; [| |discriminate E]; apply String.eqb_eq in E.
  - exfalso. apply SAME. pose proof (cr_run _ _ _ _ _ _ _ _ _ _ R) as RUN. rewrite (cmd_JOIN _ (cr_in _ _ _ _ _ _ _ _ _ _ R) E) in RUN. cbn [cm_fun] in RUN.
    pose proof (prepared_quiet _ _ (cr_prep _ _ _ _ _ _ _ _ _ _ R)) as Q. destruct (user_fits _ _ _ _ L U C T) as [FI NI]. pose proof C as [_ C2]. rewrite lookup_assoc in C2. destruct (qu_cli _ _ Q _ _ C2) as (c1 & A1 & L1). destruct (looks_modes _ _ _ _ L1) as (_ & L2 & _).
    intros m m' I I' EP EJ. injection EP as EP1 EP2. destruct (IRC_JOIN_user _ _ _ _ _ _ W1 IC1 A1 (fits_looks _ _ _ _ L1 FI) ltac:(congruence) RUN m' I') as [I1|(n & name & k' & B1 & B2 & B3 & B4)].
    + rewrite P1 in I1. assert (m' = m) by (eapply mb_unique; [exact W|..]; first [assumption|congruence]). congruence.
    + exfalso. apply B3. exists m. rewrite P1. repeat split; auto; congruence.
  - destruct (mode_setup _ _ _ _ _ _ _ L U C T _ _ _ R E) as [[_ X1]|(ch0 & k0 & name & args & z & S1 & S2 & S3 & S4)]; [exfalso; eapply (FF s1); eauto|].
    assert (D : ch = ch0 /\ (exists nick, In nick args /\ called s1 nick j) /\ asked args x /\ may_set_priv s1 h c ch x).
    { destruct S4. destruct O' as (m' & I' & E1' & E2'). destruct (okm_find s1 h (set_cl_cloaked z c) ch0 (name :: args) _ _ _ oi_mb0 I') as (m0 & I0 & []). rewrite P1 in I0.
      assert (NM : ~ (In x (mb_modes m0) <-> In x (mb_modes m'))).
      { intro Z. apply N. split; intros (m1 & I1 & F1 & F2 & F3).
        - assert (m1 = m0) by (eapply mb_unique; [exact W|..]; first [assumption|congruence]). subst m1. exists m'. repeat split; auto. tauto.
        - assert (m1 = m') by (eapply mb_unique; [exact W'|..]; first [assumption|congruence]). subst m1. exists m0. repeat split; auto; try congruence. tauto. }
      destruct (Nat.eq_dec (mb_chan m0) ch0) as [EC|NC]; [|exfalso; apply NM; rewrite (om_other0 NC); tauto].
      destruct (om_priv0 _ NM) as (M1 & M2 & nick & M3 & M4). assert (ECH : ch = ch0) by congruence. split; auto. split; [exists nick; split; auto; congruence|]. split; auto. rewrite ECH. exact M1. }
    destruct D as (<- & (nick & D1 & D2) & D3 & D4). exists k0, name, args, nick. split; auto. split; [unfold exists_chan; rewrite lookup_assoc; auto|]. split; auto. split; auto. split.
    + destruct D2 as (d & [I A] & NN). rewrite lookup_assoc in A. destruct (P5 _ _ A) as (d0 & y & A0 & ->). exists d0. split; [split; [congruence|rewrite lookup_assoc; auto]|exact NN].
    + split; auto. unfold may_set_priv, mighty, half_op, chan_op, chan_admin, chan_owner, has_priv in *. rewrite P1, P3 in D4. exact D4.
Qed.
Definition settings (k : channel) : bytes * bytes * Z * mlist * mlist := (ch_modes k, ch_key k, ch_maxusers k, ch_bans k, ch_excepts k).
Lemma settings_dec : forall a b : bytes * bytes * Z * mlist * mlist, {a = b} + {a <> b}.
Proof. repeat decide equality. Qed.
Lemma mode_event : forall e s s' ch k k', live s -> undisturbed s' -> step e s = Ok tt s' -> exists_chan s ch k -> exists_chan s' ch k' -> settings k' <> settings k ->
  exists i h c text b s1 s2 k1 k2, live s1 /\ undisturbed s1 /\ actions s s1 /\ client_of s1 i h c /\ Parse_Request i text s1 = Ok b s2 /\ actions s2 s' /\
    exists_chan s1 ch k1 /\ exists_chan s2 ch k2 /\ settings k1 = settings k /\ settings k2 <> settings k /\
    (cl_type c = T_USER -> unsettled s1 h c ch text k1 k2).
Proof.
  intros e s s' ch k k' L U H K K' N.
  destruct (chan_event (fun x => settings x <> settings k) eq _) with (e := e) (s := s) (s' := s') (ch := ch) (k := k) (k' := k') as (i & h & c & text & b & s1 & s2 & k1 & k2 & L1 & U1 & A1 & C & PR & A2 & K1 & N1 & K2 & N2); auto.
  - intro x. destruct (settings_dec (settings x) (settings k)); [right; auto|left; auto].
  - intros x y -> E. exact E.
  - intros s0 x x' Cx. apply chore_rel. exact Cx.
  - intros s0 ev x x' Sx. apply (step_rel_silent (X := also wf (byC eq s0)) ev Sx).
  - assert (E1 : settings k1 = settings k). { destruct (settings_dec (settings k1) (settings k)); auto. contradiction. }
    exists i, h, c, text, b, s1, s2, k1, k2. repeat (split; [assumption|]). intro T. destruct (mode_line _ _ _ _ _ _ _ L1 U1 C T PR _ _ _ K1 K2) as [(B1 & B2 & B3 & B4 & B5)|UN]; auto.
    exfalso. apply N2. rewrite <- E1. unfold settings. congruence.
Qed.
Lemma priv_dec : forall s j ch x, {has_priv s j ch x} + {~ has_priv s j ch x}.
Proof.
  intros. destruct (existsb (fun m => Nat.eqb (mb_client m) j && Nat.eqb (mb_chan m) ch && memb x (mb_modes m)) (s_members s)) eqn:E; [left|right].
  - apply existsb_exists in E. destruct E as (m & I & E). apply andb_true_iff in E. destruct E as [E E3]. apply andb_true_iff in E. destruct E as [E1 E2]. apply Nat.eqb_eq in E1, E2. apply memb_In in E3. exists m. auto.
  - intros (m & I & E1 & E2 & E3). assert (Y : existsb (fun m => Nat.eqb (mb_client m) j && Nat.eqb (mb_chan m) ch && memb x (mb_modes m)) (s_members s) = true). { apply existsb_exists. exists m. split; auto. apply memb_In in E3. rewrite E1, E2, E3, !Nat.eqb_refl. reflexivity. } congruence.
Qed.
Lemma priv_event : forall e s s' j ch x, live s -> undisturbed s' -> step e s = Ok tt s' -> ~ has_priv s j ch x -> has_priv s' j ch x ->
  exists i h c text b s1 s2, live s1 /\ undisturbed s1 /\ actions s s1 /\ client_of s1 i h c /\ Parse_Request i text s1 = Ok b s2 /\ actions s2 s' /\ ~ has_priv s1 j ch x /\ has_priv s2 j ch x /\
    (cl_type c = T_USER -> ~ is_on s1 j ch \/ exists k name args nick, says text "MODE" (name :: args) /\ exists_chan s1 ch k /\ same_name name (ch_name k) /\ In nick args /\ called s1 nick j /\ asked args x /\ may_set_priv s1 h c ch x).
Proof.
  intros e s s' j ch x L U H N Y.
  assert (NQ : forall s s', live s -> also wf (byM (fun _ _ => False) eq s) s s' -> ~ has_priv s j ch x -> ~ has_priv s' j ch x).
  { intros y y' Lx F Nx (m & I & E1 & E2 & E3). apply Nx. destruct (F (live_wf _ Lx)) as [_ F1]. destruct (F1 byM_refl m I) as [[]|(m0 & M0 & G1 & G2 & G3)]. exists m0. split; auto. split; [congruence|]. split; congruence. }
  destruct (by_a_line (fun s => has_priv s j ch x)) with (e := e) (s := s) (s' := s') as (i & h & c & text & b & s1 & s2 & L1 & U1 & A1 & C & PR & A2 & N1 & Y1); auto.
  - intro y. apply priv_dec.
  - intros y y' Lx Cx. apply NQ; auto. apply chore_rel. exact Cx.
  - intros ev y y' Lx Sx Cx. apply NQ; auto. revert Cx. apply (step_rel_silent (X := also wf (byM (fun _ _ => False) eq y)) ev Sx).
  - exists i, h, c, text, b, s1, s2. repeat (split; [assumption|]). intro T. destruct (is_on_dec s1 j ch) as [O|O]; [right|left; auto].
    eapply priv_line; eauto; [destruct Y1 as (m & I & E1 & E2 & _); exists m; auto|tauto].
Qed.
