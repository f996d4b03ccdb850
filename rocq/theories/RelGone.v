(** The exact effect of removing clients (Client_Destroy) and closing connections (Conn_Close) on
    the tables of the server. *)
From Coq Require Import List Ascii String ZArith NArith Bool Lia.
From Coq Require Import Relations RelationClasses.
From Verif Require Import Bytes Strl Match Lists Hash ParseReq State Messages Monad Core Write Info Chan Mode Msg Login Oper Server Dispatch Conn Rel RelWrite RelInfo RelBase RelChan RelSrv RelInit RelKey RelCmd RelComp WF.
Import ListNotations.
Local Open Scope m_scope.

Definition nofilter {A} (f : A -> bool) (l : list A) : list A := filter (fun x => negb (f x)) l.
Lemma nofilter_none : forall A (f : A -> bool) l, (forall x, In x l -> f x = false) -> nofilter f l = l.
Proof. induction l as [|x l IH]; intros H; cbn; auto. unfold nofilter in *. cbn. rewrite (H x) by (left; auto). cbn. rewrite IH; auto. intros; apply H; right; auto. Qed.
Lemma nofilter_or : forall A (f g : A -> bool) l, nofilter g (nofilter f l) = nofilter (fun x => f x || g x) l.
Proof.
  unfold nofilter. induction l as [|x l IH]; cbn; auto. destruct (f x); cbn; auto. destruct (g x); cbn; rewrite IH; auto.
Qed.
Lemma nofilter_ext : forall A (f g : A -> bool) l, (forall x, In x l -> f x = g x) -> nofilter f l = nofilter g l.
Proof. intros. unfold nofilter. apply filter_ext_in. intros a Ha. rewrite (H a Ha). auto. Qed.
Lemma In_nofilter : forall A (f : A -> bool) l x, In x (nofilter f l) <-> In x l /\ f x = false.
Proof. intros. unfold nofilter. rewrite filter_In, negb_true_iff. tauto. Qed.
Lemma assoc_nofilter : forall A (f : nat -> bool) (l : list (nat * A)) k,
  assoc k (nofilter (fun p => f (fst p)) l) = if f k then None else assoc k l.
Proof.
  unfold nofilter. induction l as [|[j x] l IH]; intro k; cbn. { destruct (f k); auto. }
  destruct (Nat.eqb_spec k j).
  - subst. destruct (f j) eqn:E; cbn; [rewrite IH, E; auto|]. rewrite Nat.eqb_refl. auto.
  - destruct (f j); cbn; [apply IH|]. destruct (Nat.eqb_spec k j); [congruence|]. apply IH.
Qed.

(** [s'] is [s] without the clients [C] in the list of clients, without the structures [H] and
    without the memberships [U] (and the channels that became empty by that). *)
Record gone3 (C H : handle -> bool) (U : member -> bool) (s s' : state) : Prop := mk_gone3 {
  g_clients : s_clients s' = nofilter C (s_clients s);
  g_keys : map fst (s_heap s') = nofilter H (map fst (s_heap s));
  g_cli : forall h, H h = false -> orel cl_same (assoc h (s_heap s)) (assoc h (s_heap s'));
  g_con : forall i, orel co_same (assoc i (s_conns s)) (assoc i (s_conns s'));
  g_ckeys : map fst (s_conns s') = map fst (s_conns s);
  g_members : s_members s' = nofilter U (s_members s);
  g_chans : exists K, s_chans s' = nofilter (fun p => K (fst p)) (s_chans s) /\
    (forall ch, K ch = true -> (exists m, In m (s_members s) /\ mb_chan m = ch /\ U m = true) /\
       (forall m, In m (s_members s') -> mb_chan m <> ch) /\ (forall c, assoc ch (s_chans s) = Some c -> memb "P" (ch_modes c) = false)) /\
    (forall m, In m (s_members s) -> U m = true -> K (mb_chan m) = true \/
       (exists c, assoc (mb_chan m) (s_chans s) = Some c /\ memb "P" (ch_modes c) = true) \/
       (exists m', In m' (s_members s') /\ mb_chan m' = mb_chan m));
  g_conf : s_conf s' = s_conf s; g_now : s_now s' = s_now s; g_next : s_next s' = s_next s; g_chnext : s_chnext s' = s_chnext s;
  g_numconn : s_numconn s' = s_numconn s; g_glines : s_glines s' = s_glines s; g_klines : s_klines s' = s_klines s;
  g_servers : s_servers s' = s_servers s; g_quit : s_sigquit s' = s_sigquit s;
  g_odd : incl (s_odd s) (s_odd s') /\ (H This_Server = false -> s_odd s' = s_odd s) /\ (H This_Server = true -> In O_Self (s_odd s')) }.

Lemma gone3_wr : forall s s', wr s s' -> gone3 (fun _ => false) (fun _ => false) (fun _ => false) s s'.
Proof.
  intros s s' W. destruct (wr_same _ _ W). destruct (wr_tabs _ _ W). split; auto.
  - rewrite nofilter_none; auto.
  - rewrite nofilter_none; auto.
  - rewrite nofilter_none; auto.
  - exists (fun _ => false). rewrite nofilter_none by auto. split; auto. split; [discriminate|]. discriminate.
  - rewrite w_odd. split; [intros x Hx; auto|]. split; auto. discriminate.
Qed.
Lemma gone3_trans : forall C1 H1 U1 C2 H2 U2 s s1 s2, gone3 C1 H1 U1 s s1 -> gone3 C2 H2 U2 s1 s2 ->
  gone3 (fun x => C1 x || C2 x) (fun x => H1 x || H2 x) (fun x => U1 x || U2 x) s s2.
Proof.
  intros C1 H1 U1 C2 H2 U2 s s1 s2 G1 G2. destruct G1 as [A1 A2 A3 A4 A5 A6 A7 A8 A9 A10 A11 A12 A13 A14 A15 A16 A17], G2 as [B1 B2 B3 B4 B5 B6 B7 B8 B9 B10 B11 B12 B13 B14 B15 B16 B17].
  split; try congruence.
  - rewrite B1, A1. apply nofilter_or.
  - rewrite B2, A2. apply nofilter_or.
  - intros h Hh. apply orb_false_iff in Hh. destruct Hh. eapply orel_trans; eauto. apply cl_same_trans.
  - intro i. eapply orel_trans; eauto. apply co_same_trans.
  - rewrite B6, A6. apply nofilter_or.
  - destruct A7 as (K1 & E1 & P1 & Q1), B7 as (K2 & E2 & P2 & Q2). exists (fun ch => K1 ch || K2 ch). split; [|split].
    + rewrite E2, E1. apply nofilter_or.
    + intros ch Hk. destruct (K1 ch) eqn:Ek; cbn in Hk.
      * destruct (P1 ch Ek) as ((m & X1 & X2 & X3) & X4 & X5). split; [exists m; rewrite X3; auto|]. split; auto.
        intros m' Hm'. apply X4. rewrite B6 in Hm'. apply In_nofilter in Hm'. tauto.
      * destruct (P2 ch Hk) as ((m & X1 & X2 & X3) & X4 & X5). split; [exists m; rewrite X3, orb_true_r; split; auto; rewrite A6 in X1; apply In_nofilter in X1; tauto|].
        split; auto. intros c Hc. apply X5. rewrite E1, assoc_nofilter, Ek. auto.
    + assert (Y : forall m, In m (s_members s1) -> U2 m = true -> K1 (mb_chan m) || K2 (mb_chan m) = true \/
        (exists c, assoc (mb_chan m) (s_chans s) = Some c /\ memb "P" (ch_modes c) = true) \/ (exists m', In m' (s_members s2) /\ mb_chan m' = mb_chan m)).
      { intros m Hm HU. destruct (Q2 m Hm HU) as [X|[(c & X & Y)|X]]; auto.
        - rewrite X, orb_true_r. auto.
        - right. left. exists c. split; auto. rewrite E1, assoc_nofilter in X. destruct (K1 (mb_chan m)); [discriminate|auto]. }
      intros m Hm HU. destruct (U1 m) eqn:EU; cbn in HU.
      * destruct (Q1 m Hm EU) as [X|[X|(m' & X & Z)]]; [rewrite X; auto|auto|]. destruct (U2 m') eqn:EU2.
        -- rewrite <- Z. apply Y; auto.
        -- right. right. exists m'. split; auto. rewrite B6. apply In_nofilter. auto.
      * apply Y; auto. rewrite A6. apply In_nofilter. auto.
  - destruct A17 as (X1 & X2 & X3), B17 as (Y1 & Y2 & Y3). split. { intros o Ho. auto. } split.
    + intros Hh. apply orb_false_iff in Hh. destruct Hh. rewrite Y2; auto.
    + intros Hh. apply orb_true_iff in Hh. destruct Hh; auto.
Qed.
Lemma gone3_ext : forall C H U C' H' U' s s', gone3 C H U s s' ->
  (forall x, C x = C' x) -> (forall x, H x = H' x) -> (forall m, In m (s_members s) -> U m = U' m) -> gone3 C' H' U' s s'.
Proof.
  intros C H U C' H' U' s s' [] E1 E2 E3. split; auto.
  - rewrite g_clients0. apply nofilter_ext. auto.
  - rewrite g_keys0. apply nofilter_ext. auto.
  - intros h Hh. apply g_cli0. rewrite E2. auto.
  - rewrite g_members0. apply nofilter_ext. auto.
  - destruct g_chans0 as (K & X1 & X2 & X3). exists K. split; auto. split.
    + intros ch Hk. destruct (X2 ch Hk) as ((m & Y1 & Y2 & Y3) & Y4). split; auto. exists m. rewrite <- E3; auto.
    + intros m Hm Hu. apply X3; auto. rewrite E3; auto.
  - rewrite <- E2. auto.
Qed.
(** sequencing with explicit results *)
Lemma gone3_seq : forall C1 H1 U1 C2 H2 U2 C H U s s1 s2, gone3 C1 H1 U1 s s1 -> gone3 C2 H2 U2 s1 s2 ->
  (forall x, C1 x || C2 x = C x) -> (forall x, H1 x || H2 x = H x) -> (forall m, In m (s_members s) -> U1 m || U2 m = U m) -> gone3 C H U s s2.
Proof. intros. eapply gone3_ext; [eapply gone3_trans; eauto| | |]; auto. Qed.
Lemma gone3_wr_l : forall C H U s s1 s2, wr s s1 -> gone3 C H U s1 s2 -> gone3 C H U s s2.
Proof. intros. eapply gone3_seq; [apply gone3_wr; eauto|eauto| | |]; auto. Qed.
Lemma gone3_wr_r : forall C H U s s1 s2, gone3 C H U s s1 -> wr s1 s2 -> gone3 C H U s s2.
Proof. intros. eapply gone3_seq; [eauto|apply gone3_wr; eauto| | |]; intros; apply orb_false_r. Qed.
Lemma gone3_refl : forall s, gone3 (fun _ => false) (fun _ => false) (fun _ => false) s s.
Proof. intros. apply gone3_wr. reflexivity. Qed.

(** ---- leaving a channel ---- *)
Lemma del_mb_filter : forall ch h l, NoDup (map mpair l) -> del_mb ch h l = nofilter (is_mb ch h) l.
Proof.
  unfold nofilter. induction l as [|m l IH]; intro N; cbn; auto. inversion N as [|x y N1 N2]; subst.
  destruct (is_mb ch h m) eqn:E; cbn; [|rewrite IH; auto]. symmetry. apply nofilter_none. intros m' Hm'.
  destruct (is_mb ch h m') eqn:E'; auto. destruct N1. apply is_mb_pair in E, E'. rewrite E, <- E'. apply in_map. auto.
Qed.
Lemma drop_chan_ok : forall ch s a s' U, (p <- Channel_HasMode ch "P" ;;
    (if p then ret tt else n <- Channel_MemberCount ch ;; whenM (n =? 0)%Z (Delete_Channel ch))) s = Ok a s' ->
  forall s0, wr (set_s_members (nofilter U (s_members s0)) s0) s ->
  (forall m, In m (s_members s0) -> U m = true -> mb_chan m = ch) -> (exists m, In m (s_members s0) /\ U m = true) ->
  gone3 (fun _ => false) (fun _ => false) U s0 s'.
Proof.
  intros ch s a s' U H s0 Wr Hu (m0 & Hm0 & Hu0). bd H as p s1 H1. unfold Channel_HasMode in H1. bd H1 as c s2 H2. apply chan_ok in H2. destruct H2 as [Hc ->].
  apply ret_ok in H1. destruct H1 as [-> ->].
  destruct (wr_same _ _ Wr). destruct (wr_tabs _ _ Wr) as [T1 T2]. cbn [s_members s_heap s_conns s_clients s_chans set_s_members s_conf s_now s_next s_chnext s_numconn s_glines s_klines s_servers s_odd s_sigquit] in *.
  rename w_chans into Ec. rewrite Ec in Hc.
  assert (P : strchr0 "P" (ch_modes c) = memb "P" (ch_modes c)) by reflexivity. rewrite P in H.
  assert (Y : forall K, (exists s1, s' = set_s_chans (nofilter (fun p => K (fst p)) (s_chans s0)) s1 /\ s = set_s_chans (s_chans s0) s1) ->
     (forall x, K x = true -> x = ch /\ memb "P" (ch_modes c) = false /\ forall m, In m (s_members s) -> mb_chan m <> ch) ->
     (K ch = false -> memb "P" (ch_modes c) = true \/ exists m', In m' (s_members s) /\ mb_chan m' = ch) -> gone3 (fun _ => false) (fun _ => false) U s0 s').
  { intros K (s1 & -> & E) HK HN. assert (F : s_clients s1 = s_clients s /\ s_heap s1 = s_heap s /\ s_conns s1 = s_conns s /\ s_members s1 = s_members s /\ s_conf s1 = s_conf s /\
       s_now s1 = s_now s /\ s_next s1 = s_next s /\ s_chnext s1 = s_chnext s /\ s_numconn s1 = s_numconn s /\ s_glines s1 = s_glines s /\ s_klines s1 = s_klines s /\
       s_servers s1 = s_servers s /\ s_sigquit s1 = s_sigquit s /\ s_odd s1 = s_odd s) by (rewrite E; repeat split).
    destruct F as (F1&F2&F3&F4&F5&F6&F7&F8&F9&F10&F11&F12&F13&F14).
    split; cbn [s_members s_heap s_conns s_clients s_chans set_s_chans s_conf s_now s_next s_chnext s_numconn s_glines s_klines s_servers s_odd s_sigquit]; try congruence.
    - rewrite nofilter_none by auto. congruence.
    - rewrite nofilter_none by auto. congruence.
    - intros h _. rewrite F2. apply T1.
    - intros i. rewrite F3. apply T2.
    - exists K. split; auto. split.
      + intros x Hx. destruct (HK x Hx) as (-> & X1 & X2). split; [exists m0; split; auto|]. rewrite F4. split; auto. intros c' Hc'. congruence.
      + intros m Hm HU. rewrite (Hu m Hm HU), F4. destruct (K ch); auto. destruct (HN eq_refl); eauto.
    - rewrite F14, w_odd. split; [intros x Hx; exact Hx|]. split; auto. discriminate. }
  destruct (memb "P" (ch_modes c)) eqn:EP.
  { apply ret_ok in H. destruct H as [_ ->]. apply (Y (fun _ => false)); auto; [|discriminate].
    exists s. rewrite nofilter_none by auto. rewrite <- Ec. destruct s; auto. }
  bd H as n s2 H2. unfold Channel_MemberCount in H2. rdgets H2. unfold whenM in H.
  match type of H with (if ?b then _ else _) _ = _ => destruct b eqn:Eb end.
  - unfold Delete_Channel in H. bd H as c2 s3 H3. apply chan_ok in H3. destruct H3 as [_ ->]. apply modify_ok in H. subst s'.
    assert (Z0 : forall m, In m (s_members s) -> mb_chan m <> ch).
    { intros m Hm E. apply Z.eqb_eq in Eb. assert (In m (filter (fun m => Nat.eqb (mb_chan m) ch) (s_members s))) as I by (apply filter_In; split; auto; apply Nat.eqb_eq; auto).
      destruct (filter _ _); [destruct I|]. cbn in Eb. lia. }
    apply (Y (Nat.eqb ch)).
    + exists s. rewrite <- Ec. split; [reflexivity|]. destruct s; auto.
    + intros x Hx. apply Nat.eqb_eq in Hx. auto.
    + rewrite Nat.eqb_refl. discriminate.
  - apply ret_ok in H. destruct H as [_ ->]. apply (Y (fun _ => false)); [|discriminate|].
    + exists s. rewrite nofilter_none by auto. rewrite <- Ec. destruct s; auto.
    + intros _. right. apply Z.eqb_neq in Eb. destruct (filter (fun m => Nat.eqb (mb_chan m) ch) (s_members s)) as [|m' r] eqn:F; [cbn in Eb; lia|].
      exists m'. assert (I : In m' (m' :: r)) by (left; auto). rewrite <- F in I. apply filter_In in I. destruct I as [I1 I2]. apply Nat.eqb_eq in I2. auto.
Qed.
Lemma Remove_Client_ok : forall ty ch h origin reason inform s b s', Remove_Client ty ch h origin reason inform s = Ok b s' -> wf s ->
  gone3 (fun _ => false) (fun _ => false) (is_mb ch h) s s' /\ b = existsb (is_mb ch h) (s_members s).
Proof.
  intros ty ch h origin reason inform s b s' H W. unfold Remove_Client in H. bd H as loc s1 H1. same H1. cbv zeta in H.
  bd H as im s1 H1. unfold Channel_IsMemberOf, Get_Cl2Chan in H1. bd H1 as o s2 H2. rdgets H2. apply ret_ok in H1. destruct H1 as [-> ->].
  destruct (find (is_mb ch h) (s_members s)) as [m0|] eqn:F; cbn [negb] in H.
  2: { apply ret_ok in H. destruct H as [-> ->]. pose proof (find_none _ _ F) as F'. split.
       - eapply gone3_ext; [apply gone3_refl| | |]; auto. intros m Hm. symmetry. auto.
       - symmetry. apply not_true_iff_false. intro E. apply existsb_exists in E. destruct E as (m & Hm & E). rewrite F' in E; auto. discriminate. }
  apply find_some in F. destruct F as [F1 F2]. bd H as name s1 H1. same H1. bd H as u s1 H1. apply modify_ok in H1.
  rewrite del_mb_filter in H1 by apply (wf_members _ W).
  bd H as u2 s2 H2. assert (Wr : wr s1 s2). { destruct ty; xlast H2. } clear H2.
  assert (H' : exists u3 s3, (p <- Channel_HasMode ch "P" ;; (if p then ret tt else n <- Channel_MemberCount ch ;; whenM (n =? 0)%Z (Delete_Channel ch))) s2 = Ok u3 s3 /\ s' = s3 /\ b = true).
  { bd H as p s3 H3. bd H as u3 s4 H4. apply ret_ok in H. destruct H as [-> ->]. exists u3, s4. split; auto. unfold bind at 1. rewrite H3. exact H4. }
  destruct H' as (u3 & s3 & H3 & -> & ->). split; [|symmetry; apply existsb_exists; eauto].
  eapply drop_chan_ok; [exact H3| | |].
  - rewrite H1 in Wr. exact Wr.
  - intros m Hm HU. apply is_mb_pair in HU. inversion HU. auto.
  - exists m0. auto.
Qed.
Lemma wf_Remove : forall ty ch h origin reason inform s b s', Remove_Client ty ch h origin reason inform s = Ok b s' -> wf s -> wf s'.
Proof. intros ty ch h origin reason inform s b s' H W. assert (R : pres wf s s') by xlast H. auto. Qed.
Lemma quit_loop_ok : forall h reason l s u s', mfor l (fun ch => Remove_Client REMOVE_QUIT ch h h reason false ;;; ret tt) s = Ok u s' -> wf s ->
  gone3 (fun _ => false) (fun _ => false) (fun m => heq (mb_client m) h && existsb (Nat.eqb (mb_chan m)) l) s s'.
Proof.
  induction l as [|ch l IH]; intros s u s' H W; cbn [mfor] in H.
  - apply ret_ok in H. destruct H as [_ ->]. eapply gone3_ext; [apply gone3_refl| | |]; auto. intros. cbn. rewrite andb_false_r. auto.
  - bd H as u1 s1 H1. bd H1 as b s2 H2. apply ret_ok in H1. destruct H1 as [_ ->].
    pose proof (wf_Remove _ _ _ _ _ _ _ _ _ H2 W) as W2. apply Remove_Client_ok in H2; auto. destruct H2 as [G _].
    eapply gone3_seq; [exact G|eapply IH; eauto| | |]; auto. intros m _. cbn. unfold is_mb, heq.
    destruct (Nat.eqb (mb_client m) h), (Nat.eqb (mb_chan m) ch); auto.
Qed.
Lemma Channel_Quit_ok : forall h reason s u s', Channel_Quit h reason s = Ok u s' -> wf s ->
  gone3 (fun _ => false) (fun _ => false) (fun m => heq (mb_client m) h) s s'.
Proof.
  intros h reason s u s' H W. unfold Channel_Quit in H. bd H as mp s1 H1. same H1. cbv zeta in H. bd H as u1 s1 H1.
  assert (Wr : wr s s1) by xlast H1. clear H1. bd H as l s2 H2. unfold Chans in H2. rdgets H2. apply quit_loop_ok in H; [|eapply wf_wrs; eauto].
  eapply gone3_wr_l; [exact Wr|]. eapply gone3_ext; [exact H| | |]; auto. intros m Hm. cbn. destruct (heq (mb_client m) h); auto. cbn.
  apply existsb_exists. exists (mb_chan m). split; [|apply Nat.eqb_refl]. apply (wf_wrs _ _ Wr) in W. apply (wf_mbchan _ W (mpair m)). apply in_map. auto.
Qed.
Lemma RegisterWhowas_gone : forall h s s', Client_RegisterWhowas h s = Ok tt s' -> gone3 (fun _ => false) (fun _ => false) (fun _ => false) s s'.
Proof.
  intros h s s' H. apply RegisterWhowas_ok in H. destruct H as (s1 & W & E). eapply gone3_wr_l; [exact W|].
  destruct E as [-> | (sl & e & _ & ->)]; [apply gone3_refl|]. destruct (gone3_refl s1). split; auto.
Qed.
Lemma Destroy_User_ok : forall h txt fwd sq s u s', Destroy_UserOrService h txt fwd sq s = Ok u s' -> wf s ->
  gone3 (fun _ => false) (fun _ => false) (fun m => heq (mb_client m) h) s s'.
Proof.
  intros h txt fwd sq s u s' H W. unfold Destroy_UserOrService in H. bd H as c s1 H1. rdcli H1. bd H as u2 s2 H2.
  assert (Wr : wr s s2) by xlast H2. clear H2. bd H as u3 s3 H3. apply Channel_Quit_ok in H3; [|eapply wf_wrs; eauto]. destruct u. apply RegisterWhowas_gone in H.
  eapply gone3_wr_l; [exact Wr|]. eapply gone3_seq; [exact H3|exact H| | |]; auto. intros. apply orb_false_r.
Qed.

(** ---- removing a client ---- *)
Definition ueqb (x y : handle) : bool := Nat.eqb x y.
Definition uish (s : state) (h : handle) : bool := match assoc h (s_heap s) with Some c => userish (cl_type c) | None => false end.
Definition mem (D : list handle) (x : handle) : bool := existsb (Nat.eqb x) D.
Lemma mem_In : forall D x, mem D x = true <-> In x D.
Proof. intros. unfold mem. rewrite existsb_exists. split; [intros (y & H & E); apply Nat.eqb_eq in E; subst; auto|]. intro. exists x. split; auto. apply Nat.eqb_refl. Qed.
Lemma mem_app : forall D E x, mem (D ++ E) x = mem D x || mem E x.
Proof. intros. unfold mem. apply existsb_app. Qed.
(** the clients [D] have been removed *)
Definition gone (D : list handle) (s s' : state) : Prop :=
  gone3 (mem D) (mem D) (fun m => mem D (mb_client m) && uish s (mb_client m)) s s'.
Lemma gone_refl : forall s, gone [] s s.
Proof. intros. unfold gone. eapply gone3_ext; [apply gone3_refl| | |]; auto. Qed.
Lemma gone_uish : forall D s s' x, gone D s s' -> mem D x = false -> uish s' x = uish s x.
Proof.
  intros D s s' x G N. pose proof (g_cli _ _ _ _ _ G x N) as A. unfold uish. destruct (assoc x (s_heap s)), (assoc x (s_heap s')); cbn in A; try contradiction; auto.
  destruct A as [y ->]. reflexivity.
Qed.
Lemma gone_trans : forall D E s s1 s2, gone D s s1 -> gone E s1 s2 -> gone (D ++ E) s s2.
Proof.
  intros D E s s1 s2 G1 G2. eapply gone3_seq; [exact G1|exact G2| | |]; intros; rewrite ?mem_app; auto.
  destruct (mem D (mb_client m)) eqn:ED; cbn.
  - assert (N : uish s1 (mb_client m) = false).
    { unfold uish. destruct (assoc (mb_client m) (s_heap s1)) eqn:Ea; auto. assert (Ek : In (mb_client m) (map fst (s_heap s1))) by (eapply assoc_key; eauto). rewrite (g_keys _ _ _ _ _ G1) in Ek. apply In_nofilter in Ek. destruct Ek. congruence. }
    rewrite N, andb_false_r, orb_false_r. auto.
  - rewrite (gone_uish _ _ _ _ G1 ED). auto.
Qed.
Lemma unlink_gone : forall h s, gone3 (mem [h]) (fun _ => false) (fun _ => false) s (set_s_clients (unlink h (s_clients s)) s).
Proof.
  intros h s. destruct (gone3_refl s). split; auto. cbn. apply nofilter_ext. intros x _. cbn. unfold heq. rewrite orb_false_r. reflexivity.
Qed.
Lemma assoc_adel : forall A k (l : list (nat * A)) x, assoc x (adel k l) = if Nat.eqb x k then None else assoc x l.
Proof.
  intros. change (adel k l) with (nofilter (fun p => Nat.eqb k (fst p)) l). rewrite assoc_nofilter. rewrite Nat.eqb_sym. auto.
Qed.
Lemma free_gone : forall h s s', Free_Client h s = Ok tt s' -> gone3 (fun _ => false) (mem [h]) (fun _ => false) s s'.
Proof.
  intros h s s' H. apply Free_Client_ok in H. destruct H as (c & Hc & ->).
  assert (E : forall b, b = true -> gone3 (fun _ => false) (mem [h]) (fun _ => false) s (set_s_heap (adel h (s_heap s)) (if_odd (heq h This_Server && b) O_Self s))).
  { intros b E. destruct (gone3_refl s).
    split; cbn [s_members s_heap s_conns s_clients s_chans set_s_heap s_conf s_now s_next s_chnext s_numconn s_glines s_klines s_servers s_odd s_sigquit];
      try (unfold if_odd; destruct (heq h This_Server && b); assumption).
    - rewrite adel_keys. apply nofilter_ext. intros x _. cbn. rewrite orb_false_r. apply Nat.eqb_sym.
    - intros x Hx. rewrite assoc_adel. cbn in Hx. rewrite orb_false_r in Hx. rewrite Hx. apply orel_refl. apply cl_same_refl.
    - unfold if_odd. split. { destruct (heq h This_Server && b); cbn; intros x Hx; cbn; auto. } split.
      + intros Hx. replace (heq h This_Server) with false; [reflexivity|]. symmetry. unfold mem in Hx. cbn [existsb] in Hx. rewrite orb_false_r in Hx. unfold heq. rewrite Nat.eqb_sym. exact Hx.
      + intros Hx. unfold mem in Hx. cbn [existsb] in Hx. rewrite orb_false_r in Hx. unfold heq. rewrite Nat.eqb_sym, Hx. rewrite E. left. reflexivity. }
  specialize (E true eq_refl). rewrite andb_true_r in E. exact E.
Qed.
Lemma Destroy_Found_ok : forall h txt fwd sq s u s', Destroy_Found h txt fwd sq s = Ok u s' -> wf s -> gone [h] s s'.
Proof.
  intros h txt fwd sq s u s' H W. unfold Destroy_Found in H. bd H as u1 s1 H1. apply modify_ok in H1.
  assert (W1 : wf s1). { subst s1. assert (R : pres wf s (set_s_clients (unlink h (s_clients s)) s)) by (apply (ps (l := L_unlink)); apply p_unlink). auto. }
  pose proof (unlink_gone h s) as G1. rewrite <- H1 in G1.
  bd H as c s2 H2. rdcli H2. bd H as u3 s3 H3.
  assert (G3 : gone3 (fun _ => false) (fun _ => false) (fun m => heq (mb_client m) h && userish (cl_type c)) s1 s3).
  { destruct (cl_type c); try (eapply gone3_ext; [apply gone3_wr; xlast H3| | |]; auto; intros; symmetry; apply andb_false_r);
      (eapply gone3_ext; [eapply Destroy_User_ok; eauto| | |]; auto; intros; symmetry; apply andb_true_r). }
  destruct u. apply free_gone in H. unfold gone.
  assert (G4 := gone3_trans _ _ _ _ _ _ _ _ _ G3 H). assert (G5 := gone3_trans _ _ _ _ _ _ _ _ _ G1 G4). eapply gone3_ext; [exact G5| | |]; cbn beta.
  - intro x. destruct (mem [h] x); auto.
  - intro x. destruct (mem [h] x); auto.
  - intros m _. cbn. rewrite !orb_false_r. unfold heq, uish. destruct (Nat.eqb_spec (mb_client m) h); cbn; auto.
    rewrite e. subst s1. cbn in H2. rewrite H2. auto.
Qed.

(** ---- removing a client and everything behind it ---- *)
Definition intro_of (s : state) (x : handle) : option handle := match assoc x (s_heap s) with Some c => cl_introducer c | None => None end.
Definition is_srv (s : state) (x : handle) : Prop := exists c, assoc x (s_heap s) = Some c /\ cl_type c = T_SERVER.
(** every listed client is in front of its introducer *)
Definition ordered (s : state) : Prop := forall x p, In x (s_clients s) -> intro_of s x = Some p -> x <> p -> In p (s_clients s) -> In x (before p (s_clients s)).
(** [D] is a part of the tree rooted in [h] ... *)
Definition part_of (h : handle) (D : list handle) (s : state) : Prop :=
  forall x, In x D -> In x (s_clients s) /\ (x = h \/ exists p, intro_of s x = Some p /\ p <> x /\ (p = h \/ In p D) /\ is_srv s p).
(** ... and contains everything below its members *)
Definition closed (D : list handle) (s : state) : Prop :=
  forall x p, In p D -> is_srv s p -> In x (s_clients s) -> intro_of s x = Some p -> In x D.

Lemma gone_intro : forall D s s' x, gone D s s' -> mem D x = false -> intro_of s' x = intro_of s x.
Proof.
  intros D s s' x G N. pose proof (g_cli _ _ _ _ _ G x N) as A. unfold intro_of. destruct (assoc x (s_heap s)), (assoc x (s_heap s')); cbn in A; try contradiction; auto.
  destruct A as [y ->]. reflexivity.
Qed.
Lemma gone_srv : forall D s s' x, gone D s s' -> mem D x = false -> (is_srv s' x <-> is_srv s x).
Proof.
  intros D s s' x G N. pose proof (g_cli _ _ _ _ _ G x N) as A. unfold is_srv. destruct (assoc x (s_heap s)), (assoc x (s_heap s')); cbn in A; try contradiction.
  - destruct A as [y ->]. split; intros (z & Hz & Ht); inversion Hz; subst; eexists; split; eauto.
  - split; intros (z & Hz & Ht); discriminate.
Qed.
Lemma gone_In : forall D s s' x, gone D s s' -> (In x (s_clients s') <-> In x (s_clients s) /\ ~ In x D).
Proof. intros D s s' x G. rewrite (g_clients _ _ _ _ _ G), In_nofilter, <- not_true_iff_false, mem_In. tauto. Qed.
Lemma before_filter : forall f p l x, In x (before p l) -> f x = false -> f p = false -> In x (before p (nofilter f l)).
Proof.
  unfold nofilter. induction l as [|y l IH]; cbn; intros x H Hx Hp; auto. destruct (heq y p) eqn:E; [destruct H|].
  destruct H as [<- | H].
  - rewrite Hx. cbn. rewrite E. left; auto.
  - destruct (f y); cbn; auto. rewrite E. right. auto.
Qed.
Lemma gone_ordered : forall D s s', gone D s s' -> ordered s -> ordered s'.
Proof.
  intros D s s' G O x p Hx Hp Hn Hpl. apply (gone_In _ _ _ _ G) in Hx, Hpl. destruct Hx as [Hx Nx], Hpl as [Hpl Np].
  assert (Mx : mem D x = false) by (apply not_true_iff_false; rewrite mem_In; auto). assert (Mp : mem D p = false) by (apply not_true_iff_false; rewrite mem_In; auto).
  rewrite (gone_intro _ _ _ _ G Mx) in Hp. rewrite (g_clients _ _ _ _ _ G). apply before_filter; auto.
Qed.
Lemma before_In : forall h l x, In x (before h l) -> In x l.
Proof. induction l as [|y l IH]; cbn; intros x H; auto. destruct (heq y h); [destruct H|]. destruct H; auto. Qed.
Lemma before_neq : forall h l, ~ In h (before h l).
Proof. induction l as [|y l IH]; cbn; auto. destruct (heq y h) eqn:E; auto. intros [-> | H]; auto. unfold heq in E. rewrite Nat.eqb_refl in E. discriminate. Qed.
Lemma wf_destroy : forall n h log fwd sq s u s', destroy n h log fwd sq s = Ok u s' -> wf s -> wf s'.
Proof. intros n h log fwd sq s u s' H W. assert (R : pres wf s s') by (eapply destroy_rel; eauto). auto. Qed.
Lemma destroy_ok : forall n h log fwd sq s u s', destroy n h log fwd sq s = Ok u s' -> wf s ->
  exists D, gone D s s' /\ part_of h D s /\ (In h (s_clients s) -> In h D) /\ (ordered s -> closed D s).
Proof.
  induction n; intros h log fwd sq s u s' H W; [discriminate H|].
  pose proof H as H0. cbn [destroy] in H. bd H as c s1 H1. rdcli H1. cbv zeta in H. bd H as me s1 H2. rdcli H2. bd H as l s1 H3. unfold Clients in H3. rdgets H3.
  bd H as ch s1 H3.
  assert (C : s1 = s /\ match ch with
     | Some x => cl_type c = T_SERVER /\ In x (before h (s_clients s)) /\ intro_of s x = Some h
     | None => cl_type c = T_SERVER -> forall x, In x (before h (s_clients s)) -> intro_of s x <> Some h end).
  { destruct (ctype_eqb (cl_type c) T_SERVER) eqn:T.
    - apply ctype_eqb_eq in T. apply mfind_ok in H3.
      2: { intros a b t Ht. bd Ht as cx t1 Hc. rdcli Hc. apply ret_ok in Ht. destruct Ht; auto. }
      destruct H3 as [-> H3]. split; auto. destruct ch as [x|].
      + destruct H3 as [I F]. bd F as cx t1 Hc. rdcli Hc. apply ret_ok in F. destruct F as [F _]. split; auto. split; auto.
        unfold intro_of. rewrite Hc. unfold oheq in F. destruct (cl_introducer cx); [|discriminate]. symmetry in F. apply Nat.eqb_eq in F. subst. auto.
      + intros _ x Hx E. specialize (H3 x Hx). bd H3 as cx t1 Hc. rdcli Hc. apply ret_ok in H3. destruct H3 as [F _].
        unfold intro_of in E. rewrite Hc in E. rewrite E in F. cbn in F. rewrite Nat.eqb_refl in F. discriminate.
    - apply ret_ok in H3. destruct H3 as [-> ->]. split; auto. intros E. rewrite E in T. discriminate. }
  clear H3. destruct C as [-> C]. destruct ch as [x|].
  - destruct C as (T & Ix & Ex). bd H as v s1 H3. pose proof (wf_destroy _ _ _ _ _ _ _ _ H3 W) as W1.
    destruct (IHn _ _ _ _ _ _ _ H3 W) as (D1 & G1 & P1 & R1 & Cl1).
    destruct (IHn _ _ _ _ _ _ _ H W1) as (D2 & G2 & P2 & R2 & Cl2).
    exists (D1 ++ D2). split; [eapply gone_trans; eauto|].
    assert (D2s : forall y, In y D2 -> mem D1 y = false /\ In y (s_clients s)).
    { intros y Hy. destruct (P2 y Hy) as [Hl _]. apply (gone_In _ _ _ _ G1) in Hl. destruct Hl as [Hl Hn]. split; auto. apply not_true_iff_false. rewrite mem_In. auto. }
    assert (Hh : In h (s_clients s) -> In h (D1 ++ D2)).
    { intro Hl. apply in_app_iff. destruct (in_dec Nat.eq_dec h D1) as [|N]; auto. right. apply R2. apply (gone_In _ _ _ _ G1). auto. }
    split; [|split; [exact Hh|]].
    + intros y Hy. apply in_app_iff in Hy. destruct Hy as [Hy|Hy].
      * destruct (P1 y Hy) as [Hl [-> | (p & E1 & E0 & E2 & E3)]]; split; auto.
        -- right. exists h. split; auto. split; [|split; [auto|exists c; auto]]. intros ->. eapply before_neq; eauto.
        -- right. exists p. split; auto. split; auto. split; auto. right. apply in_app_iff. destruct E2 as [-> | E2]; auto. left. apply R1. apply before_In in Ix. auto.
      * destruct (D2s y Hy) as [M Hl]. split; auto. destruct (P2 y Hy) as [_ [-> | (p & E1 & E0 & E2 & E3)]]; auto. right. exists p.
        rewrite (gone_intro _ _ _ _ G1 M) in E1. split; auto. split; [auto|]. split; [destruct E2; auto; right; apply in_app_iff; auto|].
        destruct E2 as [-> | E2]; [exists c; auto|]. apply (gone_srv _ _ _ _ G1) in E3; auto. apply D2s; auto.
    + intros O y p Hp Sp Hy Ey. apply in_app_iff. destruct (in_dec Nat.eq_dec y D1) as [|N]; auto. right.
      apply in_app_iff in Hp. destruct Hp as [Hp|Hp]. { destruct N. eapply Cl1; eauto. }
      assert (My : mem D1 y = false) by (apply not_true_iff_false; rewrite mem_In; auto). destruct (D2s p Hp) as [Mp _].
      eapply (Cl2 (gone_ordered _ _ _ G1 O)); eauto.
      * apply (gone_srv _ _ _ _ G1); auto.
      * apply (gone_In _ _ _ _ G1). auto.
      * rewrite (gone_intro _ _ _ _ G1 My). auto.
  - destruct (existsb (heq h) (s_clients s)) eqn:E.
    + assert (Hl : In h (s_clients s)). { apply existsb_exists in E. destruct E as (y & Hy & Ey). apply Nat.eqb_eq in Ey. subst. auto. }
      exists [h]. split; [eapply Destroy_Found_ok; eauto|]. split; [|split].
      * intros y [<-|[]]. auto.
      * intros _. left; auto.
      * intros O y p [<-|[]] (c' & Hc' & T) Hy Ey. rewrite H1 in Hc'. inversion Hc'; subst c'. destruct (Nat.eq_dec y h) as [->|N]; [left; auto|].
        exfalso. eapply C; eauto.
    + apply ret_ok in H. destruct H as [_ ->]. exists []. split; [apply gone_refl|]. split; [intros y []|]. split; [|intros _ y p []].
      intro Hl. exfalso. assert (existsb (heq h) (s_clients s) = true); [|congruence]. apply existsb_exists. exists h. split; auto. apply Nat.eqb_refl.
Qed.
Lemma Client_Destroy_ok : forall h log fwd sq s u s', Client_Destroy h log fwd sq s = Ok u s' -> wf s ->
  exists D, gone D s s' /\ part_of h D s /\ (In h (s_clients s) -> In h D) /\ (ordered s -> closed D s).
Proof. intros h log fwd sq s u s' H W. unfold Client_Destroy in H. bd H as n s1 H1. rdgets H1. eapply destroy_ok; eauto. Qed.

(** ---- closing a connection ---- *)
(** [s] without the connection [i] *)
Definition dropc (i : connid) (sv : list cserver) (s : state) : state :=
  set_s_servers sv (set_s_numconn (s_numconn s - 1) (set_s_conns (adel i (s_conns s)) s)).
Lemma gone_dropc : forall D i (f : conn -> conn) sv s s1 s2, wr (set_con i (set_co_closing true) s) s1 -> gone D (set_con i f s1) s2 ->
  gone D (dropc i sv s) (dropc i sv s2).
Proof.
  intros D i f sv s s1 s2 W G. destruct (wr_same _ _ W). destruct (wr_tabs _ _ W) as [T1 T2]. destruct G.
  assert (EU : forall x, uish (set_con i f s1) x = uish (dropc i sv s) x).
  { intro x. unfold uish. change (s_heap (set_con i f s1)) with (s_heap s1). change (s_heap (dropc i sv s)) with (s_heap s). specialize (T1 x). cbn [s_heap set_con set_s_conns] in T1.
    destruct (assoc x (s_heap s)), (assoc x (s_heap s1)); cbn in T1; try contradiction; auto. destruct T1 as [y ->]. reflexivity. }
  unfold set_con, dropc in *.
  cbn [s_members s_heap s_conns s_clients s_chans set_s_conns set_s_numconn set_s_servers s_conf s_now s_next s_chnext s_numconn s_glines s_klines s_servers s_odd s_sigquit] in *.
  assert (EM : s_members s2 = nofilter (fun m => mem D (mb_client m) && uish (set_s_servers sv (set_s_numconn (s_numconn s - 1) (set_s_conns (adel i (s_conns s)) s))) (mb_client m)) (s_members s)).
  { rewrite g_members0, w_members. apply nofilter_ext. intros m Hm. rewrite EU. auto. }
  split; cbn [s_members s_heap s_conns s_clients s_chans set_s_conns set_s_numconn set_s_servers s_conf s_now s_next s_chnext s_numconn s_glines s_klines s_servers s_odd s_sigquit]; try congruence.
  - intros h Hh. eapply orel_trans; [apply cl_same_trans|apply T1|]. auto.
  - intro j. rewrite !assoc_adel. specialize (g_con0 j). specialize (T2 j). rewrite assoc_aupd, (Nat.eqb_sym i j) in T2, g_con0. destruct (Nat.eqb j i); [exact I|].
    eapply orel_trans; [apply co_same_trans|exact T2|exact g_con0].
  - rewrite !adel_keys. f_equal. etransitivity; [exact g_ckeys0|]. rewrite aupd_keys. etransitivity; [exact w_ckeys|]. apply aupd_keys.
  - rewrite w_chans, w_members in g_chans0. destruct g_chans0 as (K & X1 & X2 & X3). exists K. split; [exact X1|]. split.
    + intros ch Hk. destruct (X2 ch Hk) as ((m & Y1 & Y2 & Y3) & Y4). split; auto. exists m. rewrite <- EU. auto.
    + intros m Hm. rewrite <- EU. auto.
Qed.
Lemma part_of_ext : forall h D s s1, s_clients s1 = s_clients s -> (forall x, orel cl_same (assoc x (s_heap s)) (assoc x (s_heap s1))) ->
  (part_of h D s1 -> part_of h D s) /\ (ordered s -> ordered s1) /\ (closed D s1 -> closed D s).
Proof.
  intros h D s s1 E T.
  assert (EI : forall x, intro_of s1 x = intro_of s x).
  { intro x. unfold intro_of. specialize (T x). destruct (assoc x (s_heap s)), (assoc x (s_heap s1)); cbn in T; try contradiction; auto. destruct T as [y ->]. reflexivity. }
  assert (ES : forall x, is_srv s1 x <-> is_srv s x).
  { intro x. unfold is_srv. specialize (T x). destruct (assoc x (s_heap s)), (assoc x (s_heap s1)); cbn in T; try contradiction.
    - destruct T as [y ->]. split; intros (z & Hz & Ht); inversion Hz; subst; eexists; split; eauto.
    - split; intros (z & Hz & Ht); discriminate. }
  unfold part_of, ordered, closed. rewrite E. repeat split.
  - apply H; auto.
  - destruct (H x H0) as [_ [|(p & A & A0 & B & C)]]; auto. right. exists p. rewrite <- EI, <- ES. auto.
  - intros O x p Hx. rewrite EI. auto.
  - intros O x p Hx Hs Hl Hi. rewrite <- EI in Hi. rewrite <- ES in Hs. eauto.
Qed.
Definition whole (h : handle) (D : list handle) (s : state) : Prop :=
  part_of h D s /\ (In h (s_clients s) -> In h D) /\ (ordered s -> closed D s).
Lemma Conn_Close_ok : forall i log fwd inform s u s', Conn_Close i log fwd inform s = Ok u s' -> wf s ->
  exists c, assoc i (s_conns s) = Some c /\
    ((co_closing c = true /\ s' = s) \/
     (co_closing c = false /\ co_open c = true /\ (0 < s_numconn s)%Z /\ exists D sv, gone D (dropc i sv s) s' /\ List.length sv = List.length (s_servers s) /\
        match co_client c with Some h => whole h D s | None => D = [] end)).
Proof.
  intros i log fwd inform s u s' H W. unfold Conn_Close in H. bd H as c s1 H1. apply con_ok in H1. destruct H1 as [-> [Hc|[_ ->]]].
  2: { cbn [co_closing closed_conn] in H. bd H as u1 s1 H1. apply assertM_ok in H1. destruct H1 as [Ho _]. discriminate. }
  exists c. split; auto. destruct (co_closing c) eqn:Ec.
  { apply ret_ok in H. destruct H as [_ ->]. auto. }
  right. split; auto.
  bd H as u1 s1 H1. apply assertM_ok in H1. destruct H1 as [Ho ->]. split; auto. bd H as u1b s1 H1. apply upd_con_ok in H1. subst s1.
  bd H as o s1 H1. unfold Conn_GetClient in H1. bd H1 as c1 s2 H2. apply con_ok in H2. apply ret_ok in H1. destruct H2 as [-> H2]. destruct H1 as [-> ->].
  assert (Hc1 : co_client c1 = co_client c).
  { unfold set_con in H2. cbn [s_conns set_s_conns] in H2. rewrite assoc_aupd, Nat.eqb_refl, Hc in H2. cbn [option_map] in H2. destruct H2 as [H2|[H2 _]]; inversion H2. reflexivity. }
  rewrite Hc1 in H. clear H2 Hc1 c1.
  change (set_s_conns (aupd i (set_co_closing true) (s_conns s)) s) with (set_con i (set_co_closing true) s) in H.
  set (s1 := set_con i (set_co_closing true) s) in *.
  bd H as u2 s2 H2. assert (Wr : wr s1 s2) by xlast H2. clear H2. bd H as u3 s3 H3. apply upd_con_ok in H3. subst s3.
  change (set_s_conns (aupd i (set_co_open false) (s_conns s2)) s2) with (set_con i (set_co_open false) s2) in H.
  assert (W3 : wf (set_con i (set_co_open false) s2)).
  { assert (R : pres wf s (set_con i (set_co_open false) s2)); auto. transitivity s1; [apply (ps (l := L_coclose)); apply p_closing|].
    transitivity s2; [apply wf_wrs; auto|]. apply (ps (l := L_coclose)); apply p_closed. }
  bd H as u4 s4 H4.
  assert (G : exists D, gone D (set_con i (set_co_open false) s2) s4 /\ match co_client c with Some h => whole h D s | None => D = [] end).
  { destruct (co_client c) as [h|].
    - apply Client_Destroy_ok in H4; auto. destruct H4 as (D & G & P & R & Cl). exists D. split; auto.
      destruct (part_of_ext h D s (set_con i (set_co_open false) s2)) as (A1 & A2 & A3).
      + change (s_clients s2 = s_clients s1). apply (w_clients _ _ (wr_same _ _ Wr)).
      + apply (wt_cli _ _ (wr_tabs _ _ Wr)).
      + split; auto. split; auto. intros Hl. apply R. change (In h (s_clients s2)). rewrite (w_clients _ _ (wr_same _ _ Wr)). exact Hl.
    - apply ret_ok in H4. destruct H4 as [_ ->]. exists []. split; auto. apply gone_refl. }
  destruct G as (D & G & HD). bd H as u5 s5 H5. unfold Conf_UnsetServer in H5. bd H5 as t t1 T1. unfold now in T1. rdgets T1. bd H5 as rt t1 T1. unfold cf in T1. rdgets T1. bd H5 as r t1 T1. rdgets T1.
  apply modify_ok in H5. bd H as n s6 H6. rdgets H6. bd H as u7 s7 H7. apply modify_ok in H7. subst s7. bd H as u8 s8 H8. apply assertM_ok in H8. destruct H8 as [Hn ->]. apply modify_ok in H.
  apply Z.ltb_lt in Hn. subst s5. change (0 < s_numconn s4)%Z in Hn. rewrite (g_numconn _ _ _ _ _ G) in Hn. change (0 < s_numconn s2)%Z in Hn. rewrite (w_numconn _ _ (wr_same _ _ Wr)) in Hn. split; [exact Hn|].
  exists D. eexists. split; [|split; [|exact HD]].
  - subst s'. cbn [s_conns set_s_conns s_numconn set_s_servers]. eapply (gone_dropc D i (set_co_open false) _ s s2 s4); eauto.
  - cbn [s_servers set_s_servers set_s_conns set_s_numconn]; rewrite map_length. rewrite (g_servers _ _ _ _ _ G). change (List.length (s_servers s2) = List.length (s_servers s)). rewrite (w_servers _ _ (wr_same _ _ Wr)). reflexivity.
Qed.
