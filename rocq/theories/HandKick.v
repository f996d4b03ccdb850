(** Leaving channels against one's will: KICK (C19). *)
From Coq Require Import List Ascii String ZArith NArith Bool Lia Arith.
From Coq Require Import Relations RelationClasses.
From Verif Require Import Bytes Match MatchSpec MatchProofs Lists Hash ParseReq State Messages Monad Core Write Info Chan Mode Msg Login Oper Server Dispatch Conn.
From Verif Require Import Rel RelWrite RelInfo RelBase RelChan RelSrv RelInit RelKey RelCmd RelComp WF RelGone Frame Tree Inv1 Inv2 Inv4 Spec Observ Unch HandOper HandPrefix HandLine Frames Live Attrib HandGain HandUser HandChan HandJoin.
Import ListNotations.
Local Open Scope m_scope.

Lemma orM_ok : forall (a b : M bool) s r s', orM a b s = Ok r s' -> exists x s1, a s = Ok x s1 /\ ((x = true /\ r = true /\ s' = s1) \/ (x = false /\ b s1 = Ok r s')).
Proof. intros a b s r s' H. unfold orM in H. bd H as x s1 H1. exists x, s1. split; auto. destruct x; [apply ret_ok in H; destruct H; auto|auto]. Qed.
Lemma andM_ok : forall (a b : M bool) s r s', andM a b s = Ok r s' -> exists x s1, a s = Ok x s1 /\ ((x = false /\ r = false /\ s' = s1) \/ (x = true /\ b s1 = Ok r s')).
Proof. intros a b s r s' H. unfold andM in H. bd H as x s1 H1. exists x, s1. split; auto. destruct x; [auto|apply ret_ok in H; destruct H; auto]. Qed.
Lemma notM_ok : forall (a : M bool) s r s', notM a s = Ok r s' -> a s = Ok (negb r) s'.
Proof. intros a s r s' H. unfold notM in H. bd H as x s1 H1. apply ret_ok in H. destruct H as [-> ->]. rewrite negb_involutive. auto. Qed.
Lemma strchr0_iff : forall x l, x <> NUL -> (strchr0 x l = true <-> In x l).
Proof. intros x l N. split; [intro; apply strchr0_In; auto|]. intro I. unfold strchr0. apply orb_true_iff. right. apply memb_In. auto. Qed.

Lemma mb_unique : forall s m m', wf s -> In m (s_members s) -> In m' (s_members s) -> mb_client m = mb_client m' -> mb_chan m = mb_chan m' -> m = m'.
Proof.
  intros s m m' W I I' E1 E2. pose proof (wf_members _ W) as N. cbn in N. assert (E : mpair m = mpair m') by (unfold mpair; congruence). revert I I' E. clear E1 E2. induction (s_members s) as [|y l IH]; [intros []|].
  cbn [map] in N. inversion N as [|a b N1 N2]; subst. intros [<- |I] [<- |I'] E; auto; exfalso; apply N1; [rewrite E|rewrite <- E]; apply in_map; auto.
Qed.
Lemma UserHasMode_iff : forall ch h x s b s', wf s -> Channel_UserHasMode ch h x s = Ok b s' -> s' = s /\ is_on s h ch /\ (b = true <-> has_priv s h ch x).
Proof.
  intros ch h x s b s' W H. pose proof (UserHasMode_priv _ _ _ _ _ _ H) as [_ K]. unfold Channel_UserHasMode, Channel_UserModes in H. bd H as ms s1 H1. bd H1 as o s2 H2. unfold Get_Cl2Chan in H2. rdgets H2.
  bd H1 as m s2 H2. apply nonnull_ok in H2. destruct H2 as [F ->]. apply ret_ok in H1. destruct H1 as [-> ->]. apply ret_ok in H. destruct H as [-> ->]. split; auto.
  apply find_some in F. destruct F as [F1 F2]. unfold is_mb, heq in F2. apply andb_true_iff in F2. destruct F2 as [F2 F3]. apply Nat.eqb_eq in F2, F3. split; [exists m; auto|]. split; [exact K|].
  intros (m' & I & E1 & E2 & E3). apply memb_In. rewrite (mb_unique s m m'); auto; congruence.
Qed.
Lemma negb_not : forall (b : bool) (P : Prop), (negb b = true <-> P) -> (b = true <-> ~ P).
Proof. intros b P [A C]. split; [intros -> p; specialize (C p); discriminate|]. intro N. destruct b; auto. Qed.

Lemma can_kick_ok : forall ch h j s b s' c, wf s -> assoc h (s_heap s) = Some c -> can_kick ch h j h s = Ok b s' -> s' = s /\ (b = true ->
   has_priv s h ch "q" \/
   (has_priv s h ch "a" /\ ~ has_priv s j ch "q") \/
   (has_priv s h ch "o" /\ ~ has_priv s j ch "q" /\ ~ has_priv s j ch "a") \/
   (has_priv s h ch "h" /\ ~ has_priv s j ch "q" /\ ~ has_priv s j ch "a" /\ ~ has_priv s j ch "o") \/
   (In "o"%char (cl_modes c) /\ cf_opercanmode (s_conf s) = true)).
Proof.
  intros ch h j s b s' c W A H. unfold can_kick in H. bd H as ocm s1 H1. unfold cf in H1. rdgets H1.
  apply orM_ok in H. destruct H as (x & s1 & H1 & H). apply UserHasMode_iff in H1; auto. destruct H1 as (-> & _ & P1). destruct H as [(-> & -> & ->)|(-> & H)]; [split; auto; left; apply P1; auto|].
  assert (N : forall x s2 b2, notM (Channel_UserHasMode ch j x) s = Ok b2 s2 -> s2 = s /\ (b2 = true <-> ~ has_priv s j ch x)).
  { intros y s2 b2 K. apply notM_ok in K. apply UserHasMode_iff in K; auto. destruct K as (-> & _ & K). split; auto. apply negb_not. exact K. }
  apply orM_ok in H. destruct H as (x & s1 & H1 & H). apply andM_ok in H1. destruct H1 as (y & s2 & H2 & H1). apply UserHasMode_iff in H2; auto. destruct H2 as (-> & _ & P2).
  assert (X : s1 = s /\ (x = true -> has_priv s h ch "a" /\ ~ has_priv s j ch "q")).
  { destruct H1 as [(-> & -> & ->)|(-> & H1)]; [split; auto; discriminate|]. apply N in H1. destruct H1 as [-> H1]. split; auto. intro E. split; [apply P2; auto|apply H1; auto]. }
  destruct X as [-> X]. destruct H as [(-> & -> & ->)|(-> & H)]; [split; auto 10|]. clear X H1 P2.
  apply orM_ok in H. destruct H as (x & s1 & H1 & H). apply andM_ok in H1. destruct H1 as (z & s2 & H2 & H1). apply UserHasMode_iff in H2; auto. destruct H2 as (-> & _ & P2).
  assert (X : s1 = s /\ (x = true -> has_priv s h ch "o" /\ ~ has_priv s j ch "q" /\ ~ has_priv s j ch "a")).
  { destruct H1 as [(-> & -> & ->)|(-> & H1)]; [split; auto; discriminate|]. apply andM_ok in H1. destruct H1 as (w & s2 & H2 & H1). apply N in H2. destruct H2 as [-> H2]. destruct H1 as [(-> & -> & ->)|(-> & H1)]; [split; auto; discriminate|].
    apply N in H1. destruct H1 as [-> H1]. split; auto. intro E. split; [apply P2; auto|]. split; [apply H2; auto|apply H1; auto]. }
  destruct X as [-> X]. destruct H as [(-> & -> & ->)|(-> & H)]; [split; auto 10|]. clear X H1 P2.
  apply orM_ok in H. destruct H as (x & s1 & H1 & H). apply andM_ok in H1. destruct H1 as (v & s2 & H2 & H1). apply UserHasMode_iff in H2; auto. destruct H2 as (-> & _ & P2).
  assert (X : s1 = s /\ (x = true -> has_priv s h ch "h" /\ ~ has_priv s j ch "q" /\ ~ has_priv s j ch "a" /\ ~ has_priv s j ch "o")).
  { destruct H1 as [(-> & -> & ->)|(-> & H1)]; [split; auto; discriminate|]. apply andM_ok in H1. destruct H1 as (w & s2 & H2 & H1). apply N in H2. destruct H2 as [-> H2]. destruct H1 as [(-> & -> & ->)|(-> & H1)]; [split; auto; discriminate|].
    apply andM_ok in H1. destruct H1 as (w & s2 & H3 & H1). apply N in H3. destruct H3 as [-> H3]. destruct H1 as [(-> & -> & ->)|(-> & H1)]; [split; auto; discriminate|].
    apply N in H1. destruct H1 as [-> H1]. split; auto. intro E. split; [apply P2; auto|]. split; [apply H2; auto|]. split; [apply H3; auto|apply H1; auto]. }
  destruct X as [-> X]. destruct H as [(-> & -> & ->)|(-> & H)]; [split; auto 10|]. clear X H1 P2.
  apply andM_ok in H. destruct H as (x & s1 & H1 & H). apply HasMode_ok in H1. destruct H1 as (-> & c1 & A1 & E1). rewrite A in A1. injection A1 as <-. destruct H as [(-> & -> & ->)|(-> & H)]; [split; auto; discriminate|].
  apply ret_ok in H. destruct H as [-> ->]. split; auto. intro E. right; right; right; right. split; auto. apply strchr0_In; [auto|discriminate].
Qed.

Definition none : handle -> bool := fun _ => false.
(** [kicked h c s U]: the memberships [U] of [s] are those that [h] may end *)
Definition kicked (h : handle) (c : client) (s : state) (nicks chans : list bytes) (U : member -> bool) : Prop :=
  forall m, In m (s_members s) -> U m = true -> exists nick name k d, In nick nicks /\ In name chans /\ assoc (mb_chan m) (s_chans s) = Some k /\ same_name name (ch_name k) /\
    called s nick (mb_client m) /\ assoc (mb_client m) (s_heap s) = Some d /\ may_kick s h c (mb_chan m) k (mb_client m) d.
Lemma gone3_here : forall U s s', gone3 none none U s s' -> wf s ->
  s_conf s' = s_conf s /\ (forall ch k, assoc ch (s_chans s') = Some k -> assoc ch (s_chans s) = Some k) /\ (forall m, In m (s_members s') -> In m (s_members s)) /\ s_clients s' = s_clients s /\
  (forall j d', assoc j (s_heap s') = Some d' -> exists d, assoc j (s_heap s) = Some d /\ cl_same d d').
Proof.
  intros U s s' G W. destruct G. split; auto. split; [|split; [|split]].
  - destruct g_chans as (K & E & _). intros ch k A. rewrite E in A. rewrite assoc_nofilter in A. destruct (K ch); [discriminate|auto].
  - intros m I. rewrite g_members in I. apply In_nofilter in I. tauto.
  - rewrite g_clients. apply nofilter_none. auto.
  - intros j d' A. specialize (g_cli j eq_refl). rewrite A in g_cli. destruct (assoc j (s_heap s)) as [d|]; cbn in g_cli; [eauto|contradiction].
Qed.
Lemma kick_ok : forall h j name reason s u s' c nick, wf s -> assoc h (s_heap s) = Some c -> cl_type c = T_USER -> called s nick j -> Channel_Kick h j h name reason s = Ok u s' ->
  exists U, gone3 none none U s s' /\ kicked h c s [nick] [name] U.
Proof.
  intros h j name reason s u s' c nick W A T CA H. unfold Channel_Kick in H. bd H as o s1 H1. apply ChSearch_ok in H1; auto. destruct H1 as [-> SN].
  assert (Q : wr s s' -> exists U, gone3 none none U s s' /\ kicked h c s [nick] [name] U). { intro R. exists (fun _ => false). split; [apply gone3_wr; auto|]. intros m _ E. discriminate. }
  destruct o as [ch|]; [|apply Q; xlast H]. destruct SN as (k & AK & SN). bd H as pt s1 H1. apply Client_Type_ok in H1. destruct H1 as (-> & c1 & A1 & ->). rewrite A in A1. injection A1 as <-.
  bd H as ot s1 H1. apply Client_Type_ok in H1. destruct H1 as (-> & c1 & A1 & ->). rewrite A in A1. injection A1 as <-. rewrite T in H. cbn [ctype_eqb negb andb] in H.
  bd H as notin s1 H1. apply notM_ok in H1. apply IsMemberOf_on in H1. destruct H1 as [-> ON]. destruct notin; [apply Q; xlast H|]. bd H as b s1 H1. apply IsMemberOf_on in H1. destruct H1 as [-> ON2].
  destruct b; cbn [negb] in H; [|apply Q; xlast H]. bd H as prot s1 H1.
  assert (P : s1 = s /\ exists d, assoc j (s_heap s) = Some d /\ (prot = false -> (In "Q"%char (ch_modes k) \/ In "q"%char (cl_modes d) \/ cl_type d = T_SERVICE -> In "o"%char (cl_modes c)))).
  { apply andM_ok in H1. destruct H1 as (x & s2 & H2 & H1). apply orM_ok in H2. destruct H2 as (y & s3 & H3 & H2). apply ChHasMode_ok in H3. destruct H3 as (-> & k1 & AK1 & E1). rewrite AK in AK1. injection AK1 as <-.
    destruct CA as (d & [KC KH] & SNj). rewrite lookup_assoc in KH.
    assert (Y : s2 = s /\ (In "Q"%char (ch_modes k) \/ In "q"%char (cl_modes d) \/ cl_type d = T_SERVICE -> x = true)).
    { destruct H2 as [(-> & -> & ->)|(-> & H2)]; [split; auto|]. apply orM_ok in H2. destruct H2 as (z & s3 & H3 & H2). apply HasMode_ok in H3. destruct H3 as (-> & d1 & AD1 & E2). rewrite KH in AD1. injection AD1 as <-.
      assert (NQ : ~ In "Q"%char (ch_modes k)) by (rewrite <- (strchr0_iff "Q" (ch_modes k)) by discriminate; congruence).
      destruct H2 as [(-> & -> & ->)|(-> & H2)]; [split; auto|]. apply is_type_ok in H2. destruct H2 as (-> & d1 & AD1 & ->). rewrite KH in AD1. injection AD1 as <-. split; auto.
      intros [Z|[Z|Z]]; [contradiction|rewrite <- (strchr0_iff "q" (cl_modes d)) in Z by discriminate; congruence|rewrite Z; reflexivity]. }
    destruct Y as [-> Y]. destruct H1 as [(-> & -> & ->)|(-> & H1)].
    - split; auto. exists d. split; auto. intros _ Z. specialize (Y Z). discriminate.
    - apply notM_ok in H1. apply HasMode_ok in H1. destruct H1 as (-> & c1 & A1 & E2). rewrite A in A1. injection A1 as <-. split; auto. exists d. split; auto. intros -> _. apply strchr0_In; [symmetry; exact E2|discriminate]. }
  clear H1. destruct P as [-> (d & AD & P)]. destruct prot; [apply Q; xlast H|]. specialize (P eq_refl). bd H as ok s1 H1. apply (can_kick_ok _ _ _ _ _ _ c) in H1; auto. destruct H1 as [-> OK]. destruct ok; cbn [negb] in H; [|apply Q; xlast H].
  clear -H W A T CA AK SN ON ON2 P OK AD Q. bd H as r s1 H1. apply ret_ok in H. destruct H as [_ ->]. apply Remove_Client_ok in H1; auto. destruct H1 as [G _]. exists (is_mb ch j). split; [exact G|].
  intros m I E. apply is_mb_pair in E. unfold mpair in E. injection E as E1 E2. exists nick, name, k, d. rewrite E1, E2. repeat split; auto; [left; auto|left; auto|apply ON; auto].
Qed.
Lemma kicked_back : forall U1 U2 h c c' s s1 nicks chans, wf s -> wf s1 -> gone3 none none U1 s s1 -> assoc h (s_heap s) = Some c -> assoc h (s_heap s1) = Some c' ->
  kicked h c s nicks chans U1 -> kicked h c' s1 nicks chans U2 -> kicked h c s nicks chans (fun m => U1 m || U2 m).
Proof.
  intros U1 U2 h c c' s s1 nicks chans W W1 G A A' K1 K2 m I E. apply orb_true_iff in E. destruct (U1 m) eqn:E1; [auto|]. destruct E as [E|E]; [discriminate|].
  assert (I1 : In m (s_members s1)). { rewrite (g_members _ _ _ _ _ G). apply In_nofilter. auto. }
  destruct (gone3_here _ _ _ G W) as (G1 & G2 & G3 & G4 & G5). destruct (K2 m I1 E) as (nick & name & k & d & B1 & B2 & B3 & B4 & B5 & B6 & B7).
  destruct (G5 _ _ A') as (c0 & A0 & S0). rewrite A in A0. injection A0 as <-. destruct (G5 _ _ B6) as (d0 & D0 & S1).
  exists nick, name, k, d0. split; auto. split; auto. split; auto. split; auto. split.
  { destruct B5 as (x & [X1 X2] & X3). rewrite lookup_assoc in X2. rewrite B6 in X2. injection X2 as <-. exists d0. rewrite G4 in X1. split; [split; auto; rewrite lookup_assoc; auto|]. destruct S1 as [y ->]. exact X3. }
  split; auto. destruct B7 as (M1 & M2 & M3). assert (ON : forall x y, is_on s1 x y -> is_on s x y). { intros x y (z & Z1 & Z2). exists z. auto. }
  assert (PR : forall y x, has_priv s1 h y x -> has_priv s h y x). { intros y x (z & Z1 & Z2). exists z. auto. }
  assert (NP : forall x, ~ has_priv s1 (mb_client m) (mb_chan m) x -> ~ has_priv s (mb_client m) (mb_chan m) x).
  { intros x N (z & Z1 & Z2 & Z3 & Z4). apply N. rewrite <- (mb_unique s m z) in Z4 by (auto; congruence). exists m. auto. }
  destruct S0 as [y0 ->]. destruct S1 as [y1 ->]. cbn in M2, M3. rewrite G1 in M3. split; auto. split; auto.
  destruct M3 as [Z|[[Z Z1]|[[Z [Z1 Z2]]|[[Z [Z1 [Z2 Z3]]]|Z]]]]; auto 10.
Qed.
Lemma kicked_mono : forall h c s n1 c1 n2 c2 U, incl n1 n2 -> incl c1 c2 -> kicked h c s n1 c1 U -> kicked h c s n2 c2 U.
Proof. intros h c s n1 c1 n2 c2 U I1 I2 K m I E. destruct (K m I E) as (a & b & k & d & A1 & A2 & A3). exists a, b, k, d. auto. Qed.
Lemma try_kick_ok : forall h nick name reason s b s' c, wf s -> assoc h (s_heap s) = Some c -> cl_type c = T_USER -> try_kick h h nick name reason s = Ok b s' ->
  exists U, gone3 none none U s s' /\ kicked h c s [nick] [name] U.
Proof.
  intros h nick name reason s b s' c W A T H. unfold try_kick in H. bd H as o s1 H1. apply Client_Search_ok in H1. destruct H1 as [-> O]. destruct o as [j|].
  - destruct O as (I & d & AD & HI). bd H as u s1 H1. apply ret_ok in H. destruct H as [_ ->]. eapply kick_ok; eauto. eapply has_id_called; eauto.
  - exists (fun _ => false). split; [apply gone3_wr; xlast H|]. intros m _ E. discriminate.
Qed.
Lemma try_kick_wf : forall h nick name reason, rel (pres wf) (try_kick h h nick name reason).
Proof. intros. rel_auto. Qed.
Lemma kicks_ok : forall {Z} (f : Z -> bytes) (g : Z -> bytes) h reason l s b s' c, wf s -> assoc h (s_heap s) = Some c -> cl_type c = T_USER ->
  mall l (fun z => try_kick h h (f z) (g z) reason) s = Ok b s' -> exists U, gone3 none none U s s' /\ kicked h c s (map f l) (map g l) U.
Proof.
  intros Z f g h reason l. induction l as [|z l IH]; intros s b s' c W A T H; cbn [mall] in H.
  - apply ret_ok in H. destruct H as [_ ->]. exists (fun _ => false). split; [apply gone3_refl|]. intros m _ E. discriminate.
  - apply and_then_ok in H. destruct H as (x & s1 & H1 & H). pose proof (try_kick_wf _ _ _ _ _ _ _ H1 W) as W1. apply (try_kick_ok _ _ _ _ _ _ _ c) in H1; auto. destruct H1 as (U1 & G1 & K1).
    destruct H as [[-> H]|[-> [-> ->]]].
    + assert (A1 : exists c1, assoc h (s_heap s1) = Some c1 /\ cl_same c c1). { pose proof (g_cli _ _ _ _ _ G1 h eq_refl) as O. rewrite A in O. destruct (assoc h (s_heap s1)) as [c1|]; cbn in O; [eauto|contradiction]. }
      destruct A1 as (c1 & A1 & S1). apply (IH _ _ _ c1) in H; auto; [|destruct S1 as [y ->]; exact T]. destruct H as (U2 & G2 & K2). exists (fun m => U1 m || U2 m).
      split; [eapply gone3_seq; eauto|]. cbn [map]. eapply (kicked_back U1 U2); [exact W|exact W1|exact G1|exact A|exact A1| |]; eapply kicked_mono; try eassumption; intros y Y; cbn in *; tauto.
    + exists U1. split; auto. eapply kicked_mono; [| |exact K1]; intros y Y; cbn in *; tauto.
Qed.
(** ---- nobody else leaves a channel ---- *)
Definition on (ms : list member) (j : handle) (ch : chandle) : Prop := exists m, In m ms /\ mb_client m = j /\ mb_chan m = ch.
Definition stay (h : handle) (s s' : state) : Prop := wf s -> wf s' /\ byH (fun _ _ => True) s s' /\
  (forall j ch, on (s_members s) j ch -> j <> h -> j < s_next s -> on (s_members s') j ch \/ assoc j (s_heap s') = None).
#[export] Instance any_CR : CR (fun _ _ => True). Proof. split; auto. Qed.
#[export] Instance any_CS : forall l, CS l (fun _ _ => True). Proof. intros l c c' _. exact I. Qed.
#[export] Instance stay_po : forall h, PreOrder (stay h).
Proof.
  intro h. split; [intros s W; split; auto; split; [apply byH_refl|auto]|]. intros a b c H1 H2 W. destruct (H1 W) as (W1 & A1 & B1). destruct (H2 W1) as (W2 & A2 & B2). split; auto.
  assert (BH : byH (fun _ _ => True) a c). { destruct A1 as (C1 & N1 & D1). destruct A2 as (C2 & N2 & D2). split; [congruence|]. split; [lia|]. intros j c' Lt A. destruct (D2 j c') as (c1 & E1 & _); [lia|auto|]. destruct (D1 j c1) as (c2 & E2 & _); auto. exists c2. auto. }
  split; auto. intros j ch O N Lt. destruct (B1 j ch O N Lt) as [O1|G].
  - apply B2; auto. destruct A1 as (_ & N1 & _). lia.
  - right. destruct (assoc j (s_heap c)) eqn:E; auto. destruct A2 as (_ & _ & D2). destruct (D2 j _ ltac:(destruct A1 as (_ & N1 & _); lia) E) as (c9 & E0 & _). congruence.
Qed.
Lemma stay_same : forall h s s', also wf (byH (fun _ _ => True) s) s s' -> (wf s -> forall j ch, on (s_members s) j ch -> j <> h -> j < s_next s -> on (s_members s') j ch \/ assoc j (s_heap s') = None) -> stay h s s'.
Proof. intros h s s' A M W. destruct (A W) as [W1 B1]. split; auto. split; [apply B1; apply byH_refl|]. auto. Qed.
#[export] Instance stay_wr : forall h, WrSub (stay h).
Proof.
  intros h s s' H. apply stay_same.
  - assert (X : WrSub (also wf (byH (fun _ _ => True) s))) by exact _. apply X. exact H.
  - intros W j ch O _ _. left. assert (E : s_members s' = s_members s) by (apply fmb_wr, rt_step; auto). rewrite E. auto.
Qed.
Lemma stay_ps1 : forall h l, compo l = false -> tmb l = false -> (forall s0, PS l (also wf (byH (fun _ _ => True) s0))) -> PS l (stay h).
Proof.
  intros h l T1 T2 P s s' H. apply stay_same; [apply P; auto|]. intros W j ch O _ _. left. assert (E : s_members s' = s_members s) by (eapply frame_mb; eauto; intros ->; discriminate T1). rewrite E. auto.
Qed.
#[export] Hint Extern 1 (PS _ (stay _)) => (apply stay_ps1; [reflexivity|reflexivity|intro; exact _]) : typeclass_instances.
Lemma on_upd : forall ch h f l j c, (forall m, mb_client (f m) = mb_client m /\ mb_chan (f m) = mb_chan m) -> on l j c -> on (upd_mb ch h f l) j c.
Proof.
  intros ch h f l j c F (m & I & E1 & E2). induction l as [|y l IH]; [destruct I|]. cbn [upd_mb]. destruct (is_mb ch h y).
  - destruct I as [-> |I]; [exists (f m); split; [left; auto|destruct (F m); split; congruence]|exists m; split; [right; auto|auto]].
  - destruct I as [-> |I]; [exists m; split; [left; auto|auto]|]. destruct (IH I) as (z & Z1 & Z2). exists z. split; [right; auto|auto].
Qed.
#[export] Instance stay_mbmode : forall h, PS L_mbmode (stay h).
Proof.
  intros h s s' H. apply stay_same; [assert (P : PS L_mbmode (also wf (byH (fun _ _ => True) s))) by exact _; apply P; auto|]. intros W j ch O _ _. left. inversion H; subst. cbn [s_members set_s_members]. apply on_upd; auto.
Qed.
#[export] Instance stay_addmb : forall h, PS L_addmb (stay h).
Proof.
  intros h s s' H. apply stay_same; [assert (P : PS L_addmb (also wf (byH (fun _ _ => True) s))) by exact _; apply P; auto|]. intros W j ch O _ _. left. inversion H; subst. apply addmb_eq in H1. destruct H1 as (c & cc & _ & _ & ->).
  destruct O as (m & I & E). exists m. split; auto. right. revert I. unfold if_odd; ifs; auto.
Qed.
#[export] Instance stay_create : forall h, PS L_create (stay h).
Proof.
  intros h s s' H. apply stay_same; [assert (P : PS L_create (also wf (byH (fun _ _ => True) s))) by exact _; apply P; auto|]. intros W j ch O _ _. left. apply create_eq in H. destruct H as (n & x & c & _ & _ & _ & ->).
  destruct O as (m & I & E). exists m. split; auto. right. revert I. unfold if_odd; ifs; auto.
Qed.
Lemma gone_stays : forall D s s', gone D s s' -> forall j ch, on (s_members s) j ch -> on (s_members s') j ch \/ assoc j (s_heap s') = None.
Proof.
  intros D s s' G j ch (m & I & E1 & E2). rewrite (g_members _ _ _ _ _ G). destruct (mem D j) eqn:M.
  - right. destruct (assoc j (s_heap s')) eqn:A; auto. exfalso. assert (Ek : In j (map fst (s_heap s'))) by (eapply assoc_key; eauto). rewrite (g_keys _ _ _ _ _ G) in Ek. apply In_nofilter in Ek. destruct Ek. congruence.
  - left. exists m. split; auto. apply In_nofilter. split; auto. rewrite E1, M. reflexivity.
Qed.
#[export] Instance stay_destroy : forall h, PS L_destroy (stay h).
Proof.
  intros h s s' H. apply stay_same; [assert (P : PS L_destroy (also wf (byH (fun _ _ => True) s))) by exact _; apply P; auto|]. intros W j ch O _ _. inversion H; subst. apply Client_Destroy_ok in H2; auto. destruct H2 as (D & G & _). eapply gone_stays; eauto.
Qed.
#[export] Instance stay_close : forall h, PS L_close (stay h).
Proof.
  intros h s s' H. apply stay_same; [assert (P : PS L_close (also wf (byH (fun _ _ => True) s))) by exact _; apply P; auto|]. intros W j ch O _ _. inversion H; subst. apply Conn_Close_ok in H0; auto.
  destruct H0 as (c & _ & [[_ ->]|(_ & _ & _ & D & sv & G & _)]); auto. eapply gone_stays; [exact G|exact O].
Qed.
Lemma Remove_stay : forall ty ch h origin reason inform, rel (stay h) (Remove_Client ty ch h origin reason inform).
Proof.
  intros ty ch h origin reason inform s b s' H. apply stay_same.
  - assert (P : PS L_remove (also wf (byH (fun _ _ => True) s))) by exact _. apply P. econstructor. exact H.
  - intros W j x (m & I & E1 & E2) N _. apply Remove_Client_ok in H; auto. destruct H as [G _]. left. exists m. split; auto. rewrite (g_members _ _ _ _ _ G). apply In_nofilter. split; auto. unfold is_mb, heq.
    destruct (Nat.eqb_spec (mb_client m) h); [congruence|]. apply andb_false_r.
Qed.
#[local] Hint Extern 0 (rel _ (Remove_Client _ _ _ _ _ _)) => apply Remove_stay : rel.
Lemma Part_stay : forall h origin name reason, rel (stay h) (Channel_Part h origin name reason).
Proof. intros. unfold Channel_Part. rel_auto. Qed.
#[local] Hint Extern 0 (rel _ (Channel_Part _ _ _ _)) => apply Part_stay : rel.
Lemma part_all_stay : forall n h origin, rel (stay h) (part_all n origin h).
Proof. induction n; intros; cbn [part_all]; rel_auto. Qed.
#[local] Hint Extern 0 (rel _ (part_all _ _ _)) => apply part_all_stay : rel.
Lemma JOIN_stay : forall h req, relp (user_pre h req) (stay h) (IRC_JOIN h req).
Proof.
  intros h req s b s' [_ (c & A & T)] H. unfold isuser in T. unfold IRC_JOIN, with_sender in H. bd H as srv s1 H1. apply is_type_ok in H1. destruct H1 as (-> & c1 & A1 & ->). rewrite A in A1. injection A1 as <-. rewrite T in H. cbn [ctype_eqb] in H.
  destruct (_ && _) in H; [unfold part_from_all_channels in H; xlast H|]. destruct (strtok "," (arg req 0)); xlast H.
Qed.
Lemma PART_stay : forall h req, relp (user_pre h req) (stay h) (IRC_PART h req).
Proof.
  intros h req s b s' [_ (c & A & T)] H. unfold isuser in T. unfold IRC_PART, with_sender in H. bd H as srv s1 H1. apply is_type_ok in H1. destruct H1 as (-> & c1 & A1 & ->). rewrite A in A1. injection A1 as <-. rewrite T in H. cbn [ctype_eqb] in H.
  destruct (strtok "," (arg req 0)); xlast H.
Qed.
Lemma uothers_stay : forall j, uothers (stay j) ["JOIN"; "KICK"; "PART"]%string.
Proof. intro j. uothers_tac. Qed.
Lemma cmd_KICK : forall cmd, In cmd My_Commands -> cm_name cmd = "KICK"%string -> cmd = mkCommand "KICK" IRC_KICK US 2 (Some 3) 0.
Proof. intros cmd I E. which_cmd I E. Qed.
Lemma cmd_PART : forall cmd, In cmd My_Commands -> cm_name cmd = "PART"%string -> cmd = mkCommand "PART" IRC_PART US 1 (Some 2) 0.
Proof. intros cmd I E. which_cmd I E. Qed.
Lemma kick_line : forall s i h c text b s', live s -> undisturbed s -> client_of s i h c -> cl_type c = T_USER -> Parse_Request i text s = Ok b s' ->
  forall j ch, is_on s j ch -> ~ is_on s' j ch -> j <> h -> assoc j (s_heap s') <> None ->
  exists args nick name k d, says text "KICK" args /\ In name (split_on "," (nth 0 args [])) /\ In nick (split_on "," (nth 1 args [])) /\
    exists_chan s ch k /\ same_name name (ch_name k) /\ called s nick j /\ known s j d /\ may_kick s h c ch k j d.
Proof.
  intros s i h c text b s' L U C T H j ch O N NE KN. pose proof (live_wf _ L) as W.
  assert (Lt : j < s_next s). { destruct O as (m & I & E1 & E2). apply (in_map mpair) in I. apply (wf_mbclient _ W) in I. cbn in I. congruence. }
  assert (F : stay h s s' -> False). { intro F. destruct (F W) as (_ & _ & F1). destruct (F1 j ch O NE Lt); [apply N; auto|congruence]. }
  destruct (user_line _ _ _ _ _ _ _ _ _ _ _ _ _ (uothers_stay h) C T H) as [X|(cmd & req & s1 & R & E & X)]; [destruct (F X)|].
  pose proof (cr_run _ _ _ _ _ _ _ _ _ _ R) as RUN. pose proof (cr_in _ _ _ _ _ _ _ _ _ _ R) as IN.
  destruct (cr_prep _ _ _ _ _ _ _ _ _ _ R) as (s2 & W2 & E2). pose proof C as [_ C2]. rewrite lookup_assoc in C2. destruct (wr_cli _ _ _ _ W2 C2) as (x & C3).
  assert (C4 : assoc h (s_heap s1) = Some (set_cl_cloaked x c)) by (subst s1; exact C3).
  assert (UP : user_pre h req s1). { split; [apply (cr_pre1 _ _ _ _ _ _ _ _ _ _ R)|]. eexists. split; [exact C4|exact T]. }
  cbn [existsb] in E. rewrite !orb_true_iff in E. destruct E as [E|[E|[E|E]]]; [| | |discriminate E]; apply String.eqb_eq in E.
  - rewrite (cmd_JOIN _ IN E) in RUN. destruct F. transitivity s1; auto. exact (JOIN_stay _ _ _ _ _ UP RUN).
  - pose proof (cmd_KICK _ IN E) as EC. rewrite EC in RUN. cbn [cm_fun] in RUN. destruct (X W) as (W1 & _ & _).
    unfold IRC_KICK, with_sender in RUN. bd RUN as srv s3 H1. apply is_type_ok in H1. destruct H1 as (-> & c1 & A1 & ->). rewrite C4 in A1. injection A1 as <-. cbn [cl_type set_cl_cloaked] in RUN. rewrite T in RUN. cbn [ctype_eqb] in RUN.
    bd RUN as id s3 H1. same H1. cbv zeta in RUN.
    assert (G : exists U nicks chans, gone3 none none U s1 s' /\ kicked h (set_cl_cloaked x c) s1 nicks chans U /\ incl nicks (split_on "," (arg req 1)) /\ incl chans (split_on "," (arg req 0))).
    { assert (NM : need_more h req s1 = Ok b s' -> exists U nicks chans, gone3 none none U s1 s' /\ kicked h (set_cl_cloaked x c) s1 nicks chans U /\ incl nicks (split_on "," (arg req 1)) /\ incl chans (split_on "," (arg req 0))).
      { intro K. exists (fun _ => false), [], []. split; [apply gone3_wr; xlast K|]. split; [intros m _ Z; discriminate Z|]. split; intros y []. }
      assert (CO : (List.length (split_on "," (arg req 0)) =? List.length (split_on "," (arg req 1)))%nat = true -> mall (combine (split_on "," (arg req 1)) (split_on "," (arg req 0))) (fun p => try_kick h h (fst p) (snd p) (if argc req =? 3 then arg req 2 else id)) s1 = Ok b s' ->
         exists U nicks chans, gone3 none none U s1 s' /\ kicked h (set_cl_cloaked x c) s1 nicks chans U /\ incl nicks (split_on "," (arg req 1)) /\ incl chans (split_on "," (arg req 0))).
      { intros _ K. apply (kicks_ok _ _ _ _ _ _ _ _ (set_cl_cloaked x c)) in K; auto. destruct K as (U1 & G & K). exists U1. do 2 eexists. split; [exact G|]. split; [exact K|].
        split; intros y Y; apply in_map_iff in Y; destruct Y as ((a1 & a2) & <- & Y); cbn; [eapply in_combine_l; eauto|eapply in_combine_r; eauto]. }
      destruct (split_on "," (arg req 0)) as [|c0 [|c1 r]] eqn:SC.
      - destruct (_ =? _)%nat eqn:EL in RUN; [exact (CO EL RUN)|exact (NM RUN)].
      - apply (kicks_ok (fun n => n) (fun _ => c0) _ _ _ _ _ _ (set_cl_cloaked x c)) in RUN; auto. destruct RUN as (U1 & G & K). exists U1. do 2 eexists. split; [exact G|]. split; [exact K|].
        split; intros y Y; apply in_map_iff in Y; destruct Y as (z & <- & Y); [auto|left; auto].
      - destruct (_ =? _)%nat eqn:EL in RUN; [exact (CO EL RUN)|exact (NM RUN)]. }
    destruct G as (U1 & nicks & chans & G & K & I1 & I2). destruct (wr_chans _ _ W2) as [E3 E4]. destruct O as (m & I & Em1 & Em2).
    assert (SM : s_members s1 = s_members s /\ s_chans s1 = s_chans s /\ s_conf s1 = s_conf s /\ s_clients s1 = s_clients s). { destruct (wr_same _ _ W2). subst s1. cbn. repeat split; auto. }
    destruct SM as (S1 & S2 & S3 & S4). assert (I' : In m (s_members s1)) by (rewrite S1; auto).
    destruct (U1 m) eqn:EU; [|exfalso; apply N; exists m; split; auto; rewrite (g_members _ _ _ _ _ G); apply In_nofilter; auto].
    destruct (K m I' EU) as (nick & name & k & d & B1 & B2 & B3 & B4 & B5 & B6 & B7). subst j ch.
    assert (D0 : exists d0, assoc (mb_client m) (s_heap s) = Some d0 /\ cl_same d0 d).
    { assert (B6' : assoc (mb_client m) (s_heap s2) = Some d) by (rewrite E2 in B6; exact B6). destruct (wr_cli_back _ _ _ _ W2 B6') as (d9 & y & D0 & ->). exists d9. split; auto. exists y. reflexivity. }
    destruct D0 as (d0 & D0 & [y ->]). destruct (cr_parse _ _ _ _ _ _ _ _ _ _ R) as (p & PL).
    exists (rq_args req), nick, name, k, d0. split; [exists p, (rq_command req); split; auto; pose proof (cr_name _ _ _ _ _ _ _ _ _ _ R) as NMe; rewrite E in NMe; exact NMe|].
    assert (K1 : forall n, nth n (rq_args req) [] = arg req n) by (intro n; unfold arg; rewrite <- nth_default_eq; unfold nth_default; destruct (nth_error (rq_args req) n); auto).
    rewrite !K1. split; [auto|]. split; [auto|]. unfold exists_chan. rewrite lookup_assoc. split; [congruence|]. split; auto.
    assert (KD : known s (mb_client m) d0). { destruct B5 as (z & [Z1 Z2] & Z3). rewrite S4 in Z1. split; auto. }
    split. { destruct B5 as (z & [Z1 Z2] & Z3). rewrite lookup_assoc in Z2. rewrite B6 in Z2. injection Z2 as <-. exists d0. split; auto. }
    split; auto. unfold may_kick, is_on, has_priv in *. rewrite S1, S3 in B7. exact B7.
  - rewrite (cmd_PART _ IN E) in RUN. destruct F. transitivity s1; auto. exact (PART_stay _ _ _ _ _ UP RUN).
Qed.
Lemma kick_event : forall e s s' j ch, live s -> undisturbed s' -> step e s = Ok tt s' -> is_on s j ch -> ~ is_on s' j ch -> (exists d, lookup j (s_heap s') = Some d) ->
  exists i h c text b s1 s2, live s1 /\ undisturbed s1 /\ actions s s1 /\ client_of s1 i h c /\ Parse_Request i text s1 = Ok b s2 /\ actions s2 s' /\ is_on s1 j ch /\ ~ is_on s2 j ch /\
    (h = j \/ cl_type c <> T_USER \/
     exists args nick name k d, says text "KICK" args /\ In name (split_on "," (nth 0 args [])) /\ In nick (split_on "," (nth 1 args [])) /\
       exists_chan s1 ch k /\ same_name name (ch_name k) /\ called s1 nick j /\ known s1 j d /\ may_kick s1 h c ch k j d).
Proof.
  intros e s s' j ch L U H Y N (d & KN). rewrite lookup_assoc in KN.
  set (Q := fun s => s_next s <= j \/ (~ is_on s j ch /\ assoc j (s_heap s) <> None)).
  assert (NQ : forall s s', live s -> stay (S j) s s' -> ~ Q s -> ~ Q s').
  { intros x x' Lx F Nx Qx'. destruct (F (live_wf _ Lx)) as (_ & (F1 & F2 & F3) & F4). assert (Lt : j < s_next x). { destruct (le_dec (s_next x) j); [exfalso; apply Nx; left; auto|lia]. }
    destruct Qx' as [Z|[Z1 Z2]]; [unfold handle in *; lia|]. destruct (assoc j (s_heap x')) as [d'|] eqn:A'; [|congruence]. destruct (F3 j d' Lt A') as (d0 & A0 & _).
    destruct (is_on_dec x j ch) as [O|O]; [|apply Nx; right; split; auto; congruence]. destruct (F4 j ch O ltac:(lia) Lt); [apply Z1; auto|congruence]. }
  assert (Lt0 : j < s_next s). { destruct Y as (m & I & E1 & E2). apply (in_map mpair) in I. apply (wf_mbclient _ (live_wf _ L)) in I. cbn in I. congruence. }
  destruct (by_a_line Q) with (e := e) (s := s) (s' := s') as (i & h & c & text & b & s1 & s2 & L1 & U1 & A1 & C & PR & A2 & N1 & Y1); auto.
  - intro x. unfold Q. destruct (le_dec (s_next x) j); [left; auto|]. destruct (is_on_dec x j ch); [right; intros [|[]]; auto|]. destruct (assoc j (s_heap x)) eqn:A; [left; right; split; auto; discriminate|right; intros [|[]]; auto].
  - intros x x' Lx Cx. apply NQ; auto. apply chore_rel. exact Cx.
  - intros ev x x' Lx Sx Cx. apply NQ; auto. revert Cx. apply (step_rel_silent (X := stay (S j)) ev Sx).
  - intros [Z|[Z _]]; [unfold handle in *; lia|auto].
  - right. split; auto. congruence.
  - assert (Lt : j < s_next s1). { destruct (le_dec (s_next s1) j); [exfalso; apply N1; left; auto|lia]. }
    assert (O1 : is_on s1 j ch). { destruct (is_on_dec s1 j ch); auto. exfalso. apply N1. right. split; auto. intro A. destruct Y1 as [Z|[Z1 Z2]].
      - assert (R : also wf (byH (fun _ _ => True) s1) s1 s2) by (eapply (action_rel (X := also wf (byH (fun _ _ => True) s1))); econstructor; eauto). destruct (R (live_wf _ L1)) as [_ R1]. destruct (R1 byH_refl) as (_ & R2 & _). unfold handle in *; lia.
      - assert (R : also wf (byH (fun _ _ => True) s1) s1 s2) by (eapply (action_rel (X := also wf (byH (fun _ _ => True) s1))); econstructor; eauto). destruct (R (live_wf _ L1)) as [_ R1]. destruct (R1 byH_refl) as (_ & _ & R2).
        destruct (assoc j (s_heap s2)) as [d2|] eqn:A2'; [|congruence]. destruct (R2 j d2 Lt A2') as (d1 & D1 & _). congruence. }
    assert (ND : ~ is_on s2 j ch /\ assoc j (s_heap s2) <> None).
    { destruct Y1 as [Z|Z]; auto. exfalso. assert (R : also wf (byH (fun _ _ => True) s1) s1 s2) by (eapply (action_rel (X := also wf (byH (fun _ _ => True) s1))); econstructor; eauto). destruct (R (live_wf _ L1)) as [_ R1]. destruct (R1 byH_refl) as (_ & R2 & _). unfold handle in *; lia. }
    destruct ND as [ND1 ND2]. exists i, h, c, text, b, s1, s2. repeat (split; [assumption|]). destruct (Nat.eq_dec j h) as [-> |NE]; [auto|]. destruct (ctype_eqb (cl_type c) T_USER) eqn:T.
    + right; right. apply ctype_eqb_eq in T. eapply kick_line; eauto.
    + right; left. intro Z. rewrite Z in T. discriminate T.
Qed.
