(** The WHOWAS history (C35). *)
From Coq Require Import List Ascii String ZArith NArith Bool Lia Arith.
From Coq Require Import Relations RelationClasses.
From Verif Require Import Bytes Strl Match Lists ListsProofs Hash ParseReq State Messages Monad Core Write Info Chan Mode Msg Login Oper Server Dispatch Conn.
From Verif Require Import Rel RelWrite RelInfo RelBase RelChan RelSrv RelInit RelKey RelCmd RelComp WF RelGone Frame Tree RelReg Inv1 Inv2 Inv3 Inv4 Inv5 Live Spec Observ Unch HandOper HandPrefix HandLine Frames Attrib HandGain HandUser HandChan HandJoin HandKick HandMode HandLogin Output HandDo HandCap HandSend SpecMore HandInvite HandServer SpecWas.
Import ListNotations.
Local Open Scope m_scope.

(** ---- the ring ---- *)
Definition ww_ok (s : state) : Prop := List.length (s_whowas s) = 64 /\ (-1 <= s_lastww s < 64)%Z.
Definition slot_of (z : Z) : Z := if ((MAX_WHOWAS <=? z + 1) || (z + 1 <? 0))%Z then 0%Z else (z + 1)%Z.
Lemma slot_mod : forall z, (-1 <= z < 64)%Z -> slot_of z = ((z + 1) mod 64)%Z.
Proof.
  intros z Hz. unfold slot_of, MAX_WHOWAS. destruct (Z.leb_spec 64 (z + 1)); cbn [orb].
  - replace z with 63%Z by lia. reflexivity.
  - destruct (Z.ltb_spec (z + 1) 0); [lia|]. rewrite Z.mod_small; lia.
Qed.
Lemma nth_upd_same : forall A n (f : A -> A) l d, n < List.length l -> nth n (upd_nth n f l) d = f (nth n l d).
Proof.
  intros A n f l d. unfold upd_nth. revert l. induction n as [|n IH]; intros [|a l] L; cbn [List.length] in L; try lia; cbn [firstn skipn app nth]; [reflexivity|]. apply IH. lia.
Qed.
Lemma nth_upd_other : forall A n m (f : A -> A) l d, n <> m -> nth m (upd_nth n f l) d = nth m l d.
Proof.
  intros A n m f l d N. unfold upd_nth. rewrite <- (firstn_skipn n l) at 3. destruct (Nat.lt_ge_cases m (List.length (firstn n l))) as [L|L].
  - rewrite !app_nth1 by auto. reflexivity.
  - rewrite !app_nth2 by auto. destruct (skipn n l) as [|a r] eqn:E; [reflexivity|].
    assert (K : List.length (firstn n l) = n). { rewrite firstn_length. pose proof (skipn_length n l) as S. rewrite E in S. cbn in S. lia. }
    destruct (m - List.length (firstn n l)) eqn:Q; [lia|reflexivity].
Qed.
Lemma remembered_same : forall s s', s_whowas s' = s_whowas s -> s_lastww s' = s_lastww s -> remembered s' = remembered s.
Proof. intros s s' E1 E2. unfold remembered. rewrite E1, E2. reflexivity. Qed.
Lemma remembered_len : forall s, List.length (remembered s) = 64.
Proof. intro s. unfold remembered. rewrite map_length, seq_length. reflexivity. Qed.
Lemma push_ok : forall s s' e, ww_ok s -> s_lastww s' = slot_of (s_lastww s) -> s_whowas s' = upd_nth (Z.to_nat (slot_of (s_lastww s))) (fun _ => e) (s_whowas s) ->
  ww_ok s' /\ remembered s' = firstn 64 (e :: remembered s).
Proof.
  intros s s' e [L R] E1 E2. pose proof (slot_mod _ R) as M. set (z := s_lastww s) in *. pose proof (Z.mod_pos_bound (z + 1) 64 ltac:(lia)) as Bd. rewrite <- M in Bd.
  split. { split; [rewrite E2, upd_nth_length; auto|rewrite E1; lia]. }
  unfold remembered at 1. change (seq 0 64) with (0 :: seq 1 63). change (firstn 64 (e :: remembered s)) with (e :: firstn 63 (remembered s)). cbn [map]. f_equal.
  - rewrite E1, E2. replace (slot_of z - Z.of_nat 0)%Z with (slot_of z) by lia. rewrite (Z.mod_small (slot_of z)) by lia. rewrite nth_upd_same; [reflexivity|]. rewrite L. lia.
  - unfold remembered. rewrite firstn_map. change (firstn 63 (seq 0 64)) with (seq 0 63). rewrite <- seq_shift, map_map. apply map_ext_in. intros k Hk. apply in_seq in Hk. fold z.
    rewrite E1, E2. assert (Q : ((slot_of z - Z.of_nat (S k)) mod 64 = (z - Z.of_nat k) mod 64)%Z). { rewrite M. rewrite Zminus_mod_idemp_l. f_equal. lia. }
    rewrite Q. apply nth_upd_other. intro X. apply Z2Nat.inj in X; try lia; [|apply Z.mod_pos_bound; lia].
    rewrite M in X. assert (Y : ((z + 1 - (z - Z.of_nat k)) mod 64 = 0)%Z). { rewrite Zminus_mod. rewrite X, Z.sub_diag. reflexivity. }
    replace (z + 1 - (z - Z.of_nat k))%Z with (Z.of_nat (S k)) in Y by lia. rewrite Z.mod_small in Y by lia. lia.
Qed.

(** ---- what happens to the ring at an elementary change ---- *)
Definition fww (s s' : state) : Prop := s_whowas s' = s_whowas s /\ s_lastww s' = s_lastww s /\ s_now s' = s_now s.
#[export] Instance fww_po : PreOrder fww.
Proof. split; [intro s; repeat split|]. intros a b c (A1 & A2 & A3) (B1 & B2 & B3). unfold fww. repeat split; congruence. Qed.
#[export] Instance fww_wr : WrSub fww.
Proof. intros s s' H. destruct H; repeat split. Qed.
Lemma wr_fww : forall s s', wr s s' -> fww s s'.
Proof. intros. apply wr_incl; auto; exact _. Qed.
Definition wlab (l : lab) : bool := match l with L_whowas | L_time => true | _ => compo l end.
Lemma ww_step : forall l s s', wlab l = false -> wf s -> pstep l s s' -> fww s s'.
Proof.
  intros l s s' T W H. unfold fww. destruct l; try discriminate T; try (inversion H; subst; repeat split; reflexivity); try (inversion H; subst; unfold set_chan, if_odd; ifs; repeat split; reflexivity).
  - apply type_eq in H. destruct H as (h & c & t & tok & a & b & _ & _ & _ & ->). stcbn. ifs; repeat split; reflexivity.
  - apply type0_type, type_eq in H. destruct H as (h & c & t & tok & a & b & _ & _ & _ & ->). stcbn. ifs; repeat split; reflexivity.
  - apply new_eq in H; auto. destruct H as (c & a & b & _ & ->). repeat split; reflexivity.
  - apply new_eq in H; auto. destruct H as (c & a & b & _ & ->). repeat split; reflexivity.
  - apply create_eq in H. destruct H as (n & h & c & _ & _ & _ & ->). stcbn. ifs; repeat split; reflexivity.
  - apply create_any_eq in H. destruct H as (n & _ & ->). stcbn. ifs; repeat split; reflexivity.
  - inversion H; subst. apply addmb_eq in H1. destruct H1 as (c & cc & _ & _ & ->). stcbn. ifs; repeat split; reflexivity.
  - apply free_eq in H. destruct H as (h & c & _ & _ & ->). stcbn. ifs; repeat split; reflexivity.
  - inversion H; subst. destruct (wf_fresh _ W) as [F1 F2]. apply New_Connection_ok in H1; auto. destruct H1 as [(msg & -> & _)|(c & a & b & m & x & _ & _ & _ & _ & Wr)]; [repeat split; reflexivity|].
    apply wr_fww in Wr. exact Wr.
  - inversion H; subst. destruct (wf_fresh _ W) as [F1 F2]. apply New_Server_ok in H1; auto. destruct H1 as [-> |(sv & c & a & b & m & _ & _ & _ & ->)]; repeat split; reflexivity.
Qed.

(** the entry written about a client *)
Record told (s : state) (c : client) (e : whowas) : Prop := mk_told {
  tl_time : ww_time e = s_now s; tl_id : ww_id e = strlcpy CLIENT_NICK_LEN (id_of c);
  tl_user : ww_user e = strlcpy CLIENT_USER_LEN (match cl_user c with [] => B "~" | u => u end);
  tl_info : ww_info e = strlcpy CLIENT_INFO_LEN (cl_info c);
  tl_host : ww_host e = strlcpy CLIENT_HOST_LEN (shown_host s c);
  tl_server : exists i p, cl_introducer c = Some i /\ assoc i (s_heap s) = Some p /\ ww_server e = strlcpy CLIENT_HOST_LEN (id_of p) }.
Lemma register_ok : forall h s s', Client_RegisterWhowas h s = Ok tt s' ->
  (s' = s /\ (cf_moreprivacy (s_conf s) = true \/ exists c, assoc h (s_heap s) = Some c /\ (s_now s - cl_starttime c < 30)%Z)) \/
  (cf_moreprivacy (s_conf s) = false /\ exists c, assoc h (s_heap s) = Some c /\ (30 <= s_now s - cl_starttime c)%Z /\ exists s1 e, wr s s1 /\ told s c e /\
    s' = set_s_lastww (slot_of (s_lastww s1)) (set_s_whowas (upd_nth (Z.to_nat (slot_of (s_lastww s1))) (fun _ => e) (s_whowas s1)) s1)).
Proof.
  intros h s s' H. unfold Client_RegisterWhowas in H. bd H as mp s1 H1. unfold cf in H1. rdgets H1.
  destruct (cf_moreprivacy (s_conf s)) eqn:Mp. { rdret H. left. auto. }
  bd H as c s1 H1. rdcli H1. bd H as t s1 H2. unfold now in H2. rdgets H2.
  destruct (Z.ltb_spec (s_now s - cl_starttime c) 30)%Z. { rdret H. left. split; auto. right. exists c. auto. }
  right. split; auto. exists c. split; auto. split; auto.
  bd H as last s1 H2. rdgets H2. cbv zeta in H.
  bd H as id s1 H2. bd H as us s2 H3. bd H as ho s3 H4. bd H as inf s4 H5. bd H as it s5 H6. bd H as srv s6 H7. apply modify_ok in H.
  apply Client_ID_ok in H2. destruct H2 as [-> (cx & Hx & ->)]. rewrite H1 in Hx. injection Hx as <-.
  unfold Client_User in H3. bd H3 as c1 s7 H8. apply cli_ok in H8. destruct H8 as [H8 ->]. rewrite H1 in H8. injection H8 as <-. apply ret_ok in H3. destruct H3 as [-> ->].
  destruct (Displayed_shown _ _ _ _ _ H1 H4) as [W ->].
  destruct (wr_cli _ _ _ _ W H1) as (x & H2).
  unfold Client_Info in H5. bd H5 as c1 s7 H8. apply cli_ok in H8. destruct H8 as [H8 ->]. rewrite H2 in H8. injection H8 as <-. apply ret_ok in H5. destruct H5 as [-> ->].
  unfold Client_Introducer in H6. bd H6 as c1 s7 H8. apply cli_ok in H8. destruct H8 as [H8 ->]. rewrite H2 in H8. injection H8 as <-. apply nonnull_ok in H6. destruct H6 as [Ei ->].
  apply Client_ID_ok in H7. destruct H7 as [-> (p & H8 & ->)].
  destruct (wr_cli_back _ _ _ _ W H8) as (p0 & y & Hp & ->).
  exists s3. eexists. split; [exact W|]. split; [|]. 2: { destruct (wr_fww _ _ W) as (_ & -> & _). unfold slot_of. exact H. }
  split; cbn [ww_time ww_id ww_host ww_user ww_info ww_server]; try reflexivity.
  { destruct (cl_user c); reflexivity. }
  exists it, p0. split; [exact Ei|]. split; [exact Hp|]. reflexivity.
Qed.

(** ---- the ring always has its shape ---- *)
#[export] Instance wwok_wr : WrSub (also wf ww_ok).
Proof. apply also_wr; [exact _|]. intros s s' H _ E. unfold ww_ok in *. destruct (wr_fww s s') as (-> & -> & _); [apply rt_step; auto|]. exact E. Qed.
Lemma wwok_ps : forall l, wlab l = false -> PS l (pres wf) -> PS l (also wf ww_ok).
Proof. intros l T P s s' H W. split; [exact (P s s' H W)|]. intro E. unfold ww_ok in *. destruct (ww_step l s s') as (-> & -> & _); auto. Qed.
#[export] Hint Extern 1 (PS _ (also wf ww_ok)) => (apply wwok_ps; [reflexivity|exact _]) : typeclass_instances.
#[export] Instance wwok_time : PS L_time (also wf ww_ok).
Proof. intros s s' H W. split; [exact (ps (l := L_time) (X := pres wf) _ _ H W)|]. inversion H; subst. intro E. exact E. Qed.
#[export] Instance wwok_whowas : PS L_whowas (also wf ww_ok).
Proof.
  intros s s' H W. split; [exact (ps (l := L_whowas) (X := pres wf) _ _ H W)|]. inversion H; subst. intro E. apply register_ok in H0.
  destruct H0 as [[-> _]|(_ & c & _ & _ & s1 & e & Wr & _ & ->)]; [exact E|]. apply wr_fww in Wr. destruct Wr as (E1 & E2 & _).
  eapply (push_ok s1); [|reflexivity|reflexivity]. unfold ww_ok in *. rewrite E1, E2. exact E.
Qed.
Lemma step_wwok : forall e s s', step e s = Ok tt s' -> wf s -> ww_ok s -> ww_ok s'.
Proof. intros e s s' H W. assert (R : rel (also wf ww_ok) (step e)) by apply step_rel. apply (R _ _ _ H W). Qed.
Lemma boot_wwok : forall c sv t r s, boot c sv t r = Ok tt s -> ww_ok s.
Proof.
  intros c sv t r s H. unfold boot in H. assert (R : rel (also wf ww_ok) Channel_InitPredefined) by rel_auto. apply (R _ _ _ H).
  - apply wf_init.
  - split; [reflexivity|cbn; lia].
Qed.
Lemma action_wwok : forall s s', action s s' -> wf s -> ww_ok s -> ww_ok s'.
Proof. intros s s' H W. assert (R : also wf ww_ok s s') by (apply action_rel; auto). apply (R W). Qed.
Theorem live_wwok : forall s, live s -> ww_ok s.
Proof.
  intros s L. induction L.
  - induction H; [eapply boot_wwok; eauto|]. eapply step_wwok; eauto. apply reachable_wf. auto.
  - eapply action_wwok; eauto. apply live_wf. auto.
Qed.

(** ---- who has gone since [s0] ---- *)
(** [b]: nothing is changed about the clients *)
Definition Rw (b : bool) (c c' : client) : Prop :=
  cl_starttime c' = cl_starttime c /\ (userish (cl_type c) = true -> userish (cl_type c') = true /\ cl_id c' = cl_id c) /\
  (b = true -> cl_id c' = cl_id c /\ cl_user c' = cl_user c /\ cl_info c' = cl_info c /\ cl_host c' = cl_host c /\ cl_modes c' = cl_modes c /\ cl_introducer c' = cl_introducer c).
#[export] Instance Rw_CR : forall b, CR (Rw b).
Proof.
  intro b. split.
  - intro c. split; [reflexivity|]. split; auto. intros _. repeat split.
  - intros x y z (A1 & A2 & A3) (B1 & B2 & B3). split; [congruence|]. split.
    + intro U. destruct (A2 U) as [U1 E1]. destruct (B2 U1) as [U2 E2]. split; congruence.
    + intro E. destruct (A3 E) as (P1 & P2 & P3 & P4 & P5 & P6). destruct (B3 E) as (Q1 & Q2 & Q3 & Q4 & Q5 & Q6). repeat split; congruence.
  - intros x c. split; [reflexivity|]. split; auto. intros _. repeat split.
Qed.
#[export] Instance Rw_meta : CS L_meta (Rw false).
Proof. intros c c' H. inversion H; subst. destruct H0. split; auto. split; [|discriminate]. intro U. rewrite me_type, me_id. auto. Qed.
#[export] Instance Rw_intro : CS L_intro (Rw false).
Proof. intros c c' H. inversion H; subst. split; [reflexivity|]. split; [auto|discriminate]. Qed.
#[export] Instance Rw_umode : CS L_umode (Rw false).
Proof. intros c c' H. inversion H; subst; (split; [reflexivity|]; split; [auto|discriminate]). Qed.
#[export] Instance Rw_oper : CS L_oper (Rw false).
Proof. intros c c' H. inversion H; subst; (split; [reflexivity|]; split; [auto|discriminate]). Qed.
Lemma Rw_typed : forall b t tok c, userish (cl_type c) = false \/ userish t = true -> Rw b c (typed t tok c).
Proof.
  intros b t tok c U. split; [unfold typed; ifs; reflexivity|]. split.
  - intro K. split; [|unfold typed; ifs; reflexivity]. unfold typed. ifs; destruct U as [U|U]; try congruence; exact U.
  - intros _. unfold typed; ifs; repeat split.
Qed.

Record ww (b : bool) (s0 s : state) : Prop := mk_ww {
  ww_wf : wf s0;
  ww_by : byH (Rw b) s0 s;
  ww_now : s_now s = s_now s0;
  ww_new : forall h c', s_next s0 <= h -> assoc h (s_heap s) = Some c' -> cl_starttime c' = s_now s0;
  ww_gone : exists gone : list (handle * whowas),
    (ww_ok s0 -> ww_ok s /\ remembered s = firstn 64 (map snd gone ++ remembered s0)) /\
    NoDup (map fst gone) /\
    (forall h e, In (h, e) gone -> cf_moreprivacy (s_conf s0) = false /\ assoc h (s_heap s) = None /\ exists c c', assoc h (s_heap s0) = Some c /\ (30 <= s_now s0 - cl_starttime c)%Z /\
       Rw b c c' /\ ww_time e = s_now s0 /\ ww_id e = strlcpy CLIENT_NICK_LEN (id_of c') /\
       (b = true -> ww_user e = strlcpy CLIENT_USER_LEN (match cl_user c with [] => B "~" | u => u end) /\ ww_info e = strlcpy CLIENT_INFO_LEN (cl_info c) /\
         (memb "x" (cl_modes c) = false -> ww_host e = strlcpy CLIENT_HOST_LEN (cl_host c)) /\
         exists i, cl_introducer c = Some i /\ (i < s_next s0 -> exists p, assoc i (s_heap s0) = Some p /\ ww_server e = strlcpy CLIENT_HOST_LEN (id_of p)))) /\
    (forall h c, h < s_next s0 -> assoc h (s_heap s0) = Some c -> userish (cl_type c) = true -> (30 <= s_now s0 - cl_starttime c)%Z -> cf_moreprivacy (s_conf s0) = false ->
       In h (map fst gone) \/ exists c', assoc h (s_heap s) = Some c') }.

Section W.
Context {b : bool} {s0 : state}.
Lemma ww_refl : wf s0 -> ww b s0 s0.
Proof.
  intro W. split; auto.
  - apply byH_refl.
  - intros h c' L A. exfalso. apply (wf_lt _ _ _ W) in A. lia.
  - exists []. assert (F : firstn 64 (remembered s0) = remembered s0) by (apply firstn_all2; rewrite remembered_len; auto). split; [intro O; split; [exact O|exact (eq_sym F)]|]. split; [constructor|]. split; [intros h e []|].
    intros h c L A _ _ _. right. eauto.
Qed.
Lemma ww_pass : forall s s', ww b s0 s -> fww s s' -> byH (Rw b) s0 s' ->
  (forall h c', s_next s0 <= h -> assoc h (s_heap s') = Some c' -> cl_starttime c' = s_now s0) ->
  (forall h, h < s_next s0 -> assoc h (s_heap s) = None -> assoc h (s_heap s') = None) ->
  (forall h c, h < s_next s0 -> assoc h (s_heap s) = Some c -> userish (cl_type c) = true -> exists c', assoc h (s_heap s') = Some c') -> ww b s0 s'.
Proof.
  intros s s' [W By Nw New (gone & G1 & G2 & G3 & G4)] (F1 & F2 & F3) By' New' K1 K2. split; auto; [congruence|].
  exists gone. split; [|split; [exact G2|split]].
  - intro O. destruct (G1 O) as [O1 E]. unfold ww_ok. rewrite F1, F2. split; auto. rewrite (remembered_same _ _ F1 F2). exact E.
  - intros h e I. destruct (G3 _ _ I) as (P1 & P2 & P3). split; auto. split; auto. apply K1; auto. destruct P3 as (c & c' & A & _). eapply wf_lt; eauto.
  - intros h c L A U T M. destruct (G4 _ _ L A U T M) as [I|(c' & A')]; [auto|]. right. destruct By as (_ & _ & By). destruct (By _ _ L A') as (c0 & A0 & R). rewrite A in A0. injection A0 as <-.
    eapply K2; eauto. apply R. auto.
Qed.
Lemma ww_f : forall s s', fconf s s' -> fheap s s' -> fww s s' -> ww b s0 s -> ww b s0 s'.
Proof.
  intros s s' Fc F Fw X. pose proof X as [W By Nw New _]. eapply ww_pass; [exact X|exact Fw|eapply byH_f; eauto|..].
  - intros h c' L A. pose proof (fh_cli _ _ F h) as O. rewrite A in O. destruct (assoc h (s_heap s)) as [c|] eqn:E; [|destruct O]. destruct O as [x ->]. exact (New _ _ L E).
  - intros h L A. pose proof (fh_cli _ _ F h) as O. rewrite A in O. destruct (assoc h (s_heap s')); [destruct O|reflexivity].
  - intros h c L A _. pose proof (fh_cli _ _ F h) as O. rewrite A in O. destruct (assoc h (s_heap s')); [eauto|destruct O].
Qed.
Lemma ww_wr : forall s s', wr s s' -> ww b s0 s -> ww b s0 s'.
Proof. intros s s' W. apply ww_f; [apply fconf_wr|apply fheap_wr|apply wr_fww]; auto. Qed.
Lemma ww_set : forall s s' h f c, s_conf s' = s_conf s -> s_next s' = s_next s -> fww s s' -> s_heap s' = aupd h f (s_heap s) -> assoc h (s_heap s) = Some c -> Rw b c (f c) -> ww b s0 s -> ww b s0 s'.
Proof.
  intros s s' h f c E1 E2 Fw E3 A R X. pose proof X as [W By Nw New _]. eapply ww_pass; [exact X|exact Fw|eapply byH_set; eauto|..]; rewrite E3; intros j; intros; rewrite assoc_aupd in *; destruct (Nat.eqb_spec h j); eauto; subst j.
  - rewrite A in H0. cbn in H0. injection H0 as <-. destruct R as [-> _]. eauto.
  - congruence.
  - rewrite A. cbn. eauto.
Qed.
Lemma ww_add : forall s s' c, s_conf s' = s_conf s -> s_next s' = S (s_next s) -> fww s s' -> s_heap s' = (s_next s, c) :: s_heap s -> cl_starttime c = s_now s -> ww b s0 s -> ww b s0 s'.
Proof.
  intros s s' c E1 E2 Fw E3 T X. pose proof X as [W By Nw New _]. pose proof By as (_ & N & _). eapply ww_pass; [exact X|exact Fw|eapply (byH_new s); eauto; lia|..]; rewrite E3; intros j; intros; cbn [assoc] in *;
   match goal with |- context [Nat.eqb ?x ?y] => destruct (Nat.eqb_spec x y) | H : context [Nat.eqb ?x ?y] |- _ => destruct (Nat.eqb_spec x y) end; eauto; try congruence.
  subst j. lia.
Qed.
End W.
#[export] Instance ww_wrsub : forall b s0, WrSub (also wf (ww b s0)).
Proof. intros b s0. apply also_wr; [exact _|]. intros s s' H _. apply ww_wr. apply rt_step. exact H. Qed.
Lemma ww_ps1 : forall b s0 l, compo l = false -> wlab l = false -> theap l = false -> PS l (pres wf) -> PS l (also wf (ww b s0)).
Proof. intros b s0 l T0 T1 T2 P s s' H W. split; [exact (P s s' H W)|]. apply ww_f; [eapply conf_step; eauto|eapply frame_heap; eauto|eapply ww_step; eauto]. Qed.
#[export] Hint Extern 1 (PS _ (also wf (ww _ _))) => (apply ww_ps1; [reflexivity|reflexivity|reflexivity|exact _]) : typeclass_instances.
Lemma ww_ps2 : forall s0 l, match l with L_meta | L_attr | L_away | L_intro | L_umode | L_oper => true | _ => false end = true -> CS l (Rw false) -> PS l (pres wf) -> PS l (also wf (ww false s0)).
Proof.
  intros s0 l T C P s s' H W. split; [exact (P s s' H W)|]. pose proof (conf_step l s s' ltac:(destruct l; try discriminate T; reflexivity) W H) as FC. pose proof (ww_step l s s' ltac:(destruct l; try discriminate T; reflexivity) W H) as FW.
  destruct l; try discriminate T; (inversion H; subst; (eapply ww_set; [reflexivity|reflexivity|exact FW|reflexivity|eassumption|apply C]); [first [apply cs_meta; auto|apply cs_attr; auto|apply cs_away; auto|apply cs_intro|apply cs_oper|apply cs_umode_add; assumption|apply cs_umode_del]..]).
Qed.
#[export] Hint Extern 2 (PS _ (also wf (ww false _))) => (apply ww_ps2; [reflexivity|exact _|exact _]) : typeclass_instances.
#[export] Instance ww_idany : forall s0, PS L_idany (also wf (ww false s0)).
Proof.
  intros s0 s s' H W. split; [exact (ps (l := L_idany) (X := pres wf) _ _ H W)|]. pose proof (ww_step L_idany _ _ eq_refl W H) as FW. inversion H; subst. eapply ww_set; [reflexivity..|exact FW|reflexivity|eassumption|].
  split; [unfold set_id; ifs; reflexivity|]. split; [congruence|discriminate].
Qed.
#[export] Instance ww_type : forall b s0, PS L_type (also wf (ww b s0)).
Proof.
  intros b s0 s s' H W. split; [exact (ps (l := L_type) (X := pres wf) _ _ H W)|]. pose proof (ww_step L_type _ _ eq_refl W H) as FW. apply type_eq in H. destruct H as (h & c & t & tok & x & y & Hc & Ok & _ & ->).
  eapply (ww_set _ _ h (typed t tok) c); [unfold if_odd; ifs; reflexivity|unfold if_odd; ifs; reflexivity|exact FW|unfold if_odd; ifs; reflexivity|exact Hc|]. apply Rw_typed. apply Ok.
Qed.
#[export] Instance ww_type0 : forall b s0, PS L_type0 (also wf (ww b s0)).
Proof. intros b s0 s s' H. apply (ps (l := L_type)). apply type0_type. exact H. Qed.
Lemma ww_born : forall b s0 s s', (exists c x y, born_remote c s /\ s' = with_client c x y false s) -> fww s s' -> ww b s0 s -> ww b s0 s'.
Proof. intros b s0 s s' (c & x & y & Bn & ->) FW. eapply (ww_add s _ c); [reflexivity|reflexivity|exact FW|reflexivity|apply Bn]. Qed.
#[export] Instance ww_lnew : forall b s0, PS L_new (also wf (ww b s0)).
Proof.
  intros b s0 s s' H W. split; [exact (ps (l := L_new) (X := pres wf) _ _ H W)|]. pose proof (ww_step L_new _ _ eq_refl W H) as FW. apply new_eq in H; auto. apply ww_born; auto.
Qed.
#[export] Instance ww_lservice : forall b s0, PS L_service (also wf (ww b s0)).
Proof.
  intros b s0 s s' H W. split; [exact (ps (l := L_service) (X := pres wf) _ _ H W)|]. pose proof (ww_step L_service _ _ eq_refl W H) as FW. apply new_eq in H; auto. apply ww_born; auto.
Qed.
#[export] Instance ww_unlink : forall b s0, PS L_unlink (also wf (ww b s0)).
Proof.
  intros b s0 s s' H W. split; [exact (ps (l := L_unlink) (X := pres wf) _ _ H W)|]. inversion H; subst. intro X. pose proof X as [W0 By Nw New _]. eapply ww_pass; [exact X|repeat split|exact By|exact New|auto|eauto].
Qed.
#[export] Instance ww_accept : forall b s0, PS L_accept (also wf (ww b s0)).
Proof.
  intros b s0 s s' H W. split; [exact (ps (l := L_accept) (X := pres wf) _ _ H W)|]. intro X. inversion H; subst. destruct (wf_fresh _ W) as [F1 F2].
  match goal with J : New_Connection _ _ _ _ = _ |- _ => apply New_Connection_ok in J; auto; destruct J as [(msg & -> & _)|(c & a & b0 & m & x & Fr & _ & _ & _ & K)] end.
  { eapply ww_f; [| | |exact X]; [reflexivity|split; reflexivity || (intro; apply orel_refl; intro; exists (cl_cloaked x); destruct x; reflexivity)|repeat split]. }
  eapply ww_wr; [exact K|]. eapply (ww_add s); [reflexivity|reflexivity|repeat split|reflexivity|exact (fr_time _ _ _ _ _ _ _ _ _ _ Fr)|exact X].
Qed.
#[export] Instance ww_newserver : forall b s0, PS L_newserver (also wf (ww b s0)).
Proof.
  intros b s0 s s' H W. split; [exact (ps (l := L_newserver) (X := pres wf) _ _ H W)|]. intro X. inversion H; subst. destruct (wf_fresh _ W) as [F1 F2].
  match goal with K : New_Server _ _ _ _ = _ |- _ => apply New_Server_ok in K; auto; destruct K as [-> |(sv & c & a & b0 & m & _ & _ & Fr & ->)] end; [exact X|].
  eapply (ww_add s); [reflexivity|reflexivity|repeat split|reflexivity|exact (fr_time _ _ _ _ _ _ _ _ _ _ Fr)|exact X].
Qed.
Section D.
Context {b : bool} {s0 : state}.
Local Notation X := (also wf (ww b s0)).
Lemma free_heap : forall h s s', Free_Client h s = Ok tt s' -> s_heap s' = adel h (s_heap s) /\ s_conf s' = s_conf s /\ s_next s' = s_next s /\ fww s s'.
Proof. intros h s s' H. apply Free_Client_ok in H. destruct H as (c & _ & ->). unfold if_odd. ifs; repeat split. Qed.
Lemma byH_del : forall s s' h, s_heap s' = adel h (s_heap s) -> s_conf s' = s_conf s -> s_next s' = s_next s -> byH (Rw b) s0 s -> byH (Rw b) s0 s'.
Proof.
  intros s s' h E1 E2 E3 (K & N & By). split; [congruence|]. split; [congruence|]. intros j c' L A. rewrite E1, assoc_adel in A. destruct (Nat.eqb j h); [discriminate|eauto].
Qed.
Lemma ww_free : forall h s s' c, Free_Client h s = Ok tt s' -> assoc h (s_heap s) = Some c -> userish (cl_type c) = false -> ww b s0 s -> ww b s0 s'.
Proof.
  intros h s s' c H A U Y. apply free_heap in H. destruct H as (E1 & E2 & E3 & FW). pose proof Y as [W By Nw New _]. eapply ww_pass; [exact Y|exact FW|eapply byH_del; eauto|..]; rewrite E1; intros j; intros; rewrite assoc_adel in *; destruct (Nat.eqb_spec j h); eauto; subst; congruence.
Qed.
Lemma ww_record : forall h s s1 s', Client_RegisterWhowas h s = Ok tt s1 -> Free_Client h s1 = Ok tt s' -> ww b s0 s -> ww b s0 s'.
Proof.
  intros h s s1 s' H1 H2 Y. apply free_heap in H2. destruct H2 as (E1 & E2 & E3 & FW). pose proof Y as [W By Nw New (gone & G1 & G2 & G3 & G4)]. apply register_ok in H1.
  destruct H1 as [[-> N]|(Mp & c & A & T & s2 & e & Wr & Tl & ->)].
  - (* not recorded *)
    split; auto; [eapply byH_del; eauto|destruct FW as (_ & _ & ->); auto|intros j c' L A'; rewrite E1, assoc_adel in A'; destruct (Nat.eqb j h); [discriminate|eauto]|].
    exists gone. destruct FW as (F1 & F2 & _). split; [|split; [exact G2|split]].
    + intro O. destruct (G1 O) as [O1 E]. unfold ww_ok. rewrite F1, F2. split; auto. rewrite (remembered_same _ _ F1 F2). exact E.
    + intros j e I. destruct (G3 _ _ I) as (P1 & P2 & P3). split; auto. split; auto. rewrite E1, assoc_adel. destruct (Nat.eqb j h); auto.
    + intros j c L A U T M. destruct (G4 _ _ L A U T M) as [I|(c' & A')]; [auto|]. right. rewrite E1, assoc_adel. destruct (Nat.eqb_spec j h); [|eauto]. subst j. exfalso.
      destruct By as (C & _ & By). destruct N as [N|(d & Ad & N)]; [rewrite C in N; congruence|]. rewrite A' in Ad. injection Ad as ->. destruct (By _ _ L A') as (c0 & A0 & R). rewrite A in A0. injection A0 as <-. destruct R as [R _]. rewrite R, Nw in N. lia.
  - (* recorded *)
    pose proof (wr_fww _ _ Wr) as (Q1 & Q2 & Q3). cbn [s_heap s_conf s_next set_s_lastww set_s_whowas] in E1, E2, E3. destruct FW as (F1 & F2 & F3). cbn [s_whowas s_lastww s_now set_s_lastww set_s_whowas] in F1, F2, F3.
    assert (By2 : byH (Rw b) s0 s2) by (eapply byH_f; [apply fconf_wr; exact Wr|apply fheap_wr; exact Wr|exact By]).
    assert (L : h < s_next s0). { destruct (Nat.lt_ge_cases h (s_next s0)) as [L|L]; auto. rewrite (New _ _ L A), Nw in T. lia. }
    destruct By as (C & N & By). destruct (By _ _ L A) as (c0 & A0 & R).
    split; auto; [eapply byH_del; eauto|congruence|intros j c' Lj A'; rewrite E1, assoc_adel in A'; destruct (Nat.eqb j h); [discriminate|]; destruct (wr_cli_back _ _ _ _ Wr A') as (c1 & x & A1 & ->); exact (New _ _ Lj A1)|].
    exists ((h, e) :: gone). split; [|split; [|split]].
    + intro O. destruct (G1 O) as [O1 E]. assert (O2 : ww_ok s2) by (unfold ww_ok; rewrite Q1, Q2; exact O1). destruct (push_ok s2 s' e O2 F2 F1) as [O3 E4]. split; auto. rewrite E4. cbn [map snd app]. rewrite (remembered_same _ _ Q1 Q2), E.
      change (e :: firstn 63 (firstn 64 (map snd gone ++ remembered s0)) = e :: firstn 63 (map snd gone ++ remembered s0)). rewrite firstn_firstn. reflexivity.
    + cbn [map fst]. constructor; auto. intro I. apply in_map_iff in I. destruct I as ((j & e') & <- & I). apply G3 in I. cbn [fst] in *. destruct I as (_ & I & _). congruence.
    + intros j e' [I|I].
      * injection I as <- <-. rewrite C in Mp. split; auto. split; [rewrite E1, assoc_adel, Nat.eqb_refl; reflexivity|]. exists c0, c. split; auto. pose proof R as (R1 & R2 & R3). split; [rewrite <- R1, <- Nw; exact T|]. split; auto.
        destruct Tl as [TT TI TU TF TH (i & p & P1 & P2 & P3)]. split; [congruence|]. split; auto. intro Eb. destruct (R3 Eb) as (M1 & M2 & M3 & M4 & M5 & M6). rewrite <- M2, <- M3, <- M4, <- M5, <- M6. split; auto. split; auto. split.
        { intro Hx. rewrite TH. unfold shown_host. rewrite Hx. reflexivity. }
        exists i. split; auto. intro Li. destruct (By _ _ Li P2) as (p0 & A2 & _ & _ & R4). exists p0. split; auto. rewrite P3. unfold id_of. destruct (R4 Eb) as (-> & _). reflexivity.
      * destruct (G3 _ _ I) as (P1 & P2 & P3). split; auto. split; auto. rewrite E1, assoc_adel. destruct (Nat.eqb j h); auto. destruct (assoc j (s_heap s2)) eqn:Z; auto. destruct (wr_cli_back _ _ _ _ Wr Z) as (d1 & x1 & A1 & _). congruence.
    + intros j d Lj Aj U Tj M. destruct (G4 _ _ Lj Aj U Tj M) as [I|(c' & A')]; [left; right; exact I|]. destruct (Nat.eq_dec j h) as [-> |Nj]; [left; left; reflexivity|]. right. rewrite E1, assoc_adel. rewrite (proj2 (Nat.eqb_neq j h) Nj).
      destruct (wr_cli _ _ _ _ Wr A') as (x & Hx). eauto.
Qed.
Lemma Destroy_Found_ww : forall h txt fwd sq, rel X (Destroy_Found h txt fwd sq).
Proof.
  intros h txt fwd sq s a s' H. unfold Destroy_Found in H. bd H as u s1 H1. apply modify_ok in H1. subst s1.
  transitivity (set_s_clients (unlink h (s_clients s)) s). { apply (ps (l := L_unlink)). apply p_unlink. }
  assert (N : ~ In h (s_clients (set_s_clients (unlink h (s_clients s)) s))).
  { cbn [s_clients set_s_clients]. unfold unlink. rewrite filter_In. intros [_ N]. unfold heq in N. rewrite Nat.eqb_refl in N. discriminate. }
  set (s1 := set_s_clients (unlink h (s_clients s)) s) in *. clearbody s1.
  bd H as c s2 H2. rdcli H2. bd H as v s2 H3. assert (E : same_cl s1 s2) by xlast H3.
  rewrite <- E in N. destruct a.
  assert (Fr : forall y, wf s2 -> Free_Client h s2 = Ok tt y -> wf y).
  { intros y Wy Hy. pose proof Hy as H4. unfold Free_Client in H4. bd H4 as c2 s3 H5. apply cli_ok in H5. destruct H5 as [H5 ->]. clear H4. eapply (ps (l := L_free) (X := pres wf)); [|exact Wy]. eapply p_free; eauto. }
  assert (OTH : userish (cl_type c) = false -> wr s1 s2 -> X s1 s').
  { intros U Wr W. pose proof (wf_wrs _ _ Wr W) as W2. split; [eauto|]. intro Y. destruct (wr_cli _ _ _ _ Wr H2) as (x & Hx). eapply ww_free; [exact H|exact Hx|exact U|]. eapply ww_wr; eauto. }
  assert (USR : Destroy_UserOrService h txt fwd sq s1 = Ok tt s2 -> X s1 s').
  { intro H4. unfold Destroy_UserOrService in H4. bd H4 as c3 s3 H5. apply cli_ok in H5. destruct H5 as [_ ->]. bd H4 as u1 s3 H5. xstep s3 H5. bd H4 as u2 s4 H6. xstep s4 H6.
    intro W4. assert (W2 : wf s2) by (eapply (ps (l := L_whowas) (X := pres wf)); [|exact W4]; eapply p_whowas; eauto). split; [eauto|]. intro Y. eapply ww_record; eauto. }
  destruct v. destruct (cl_type c) eqn:Et; try (apply USR; exact H3); apply OTH; auto; xlast H3.
Qed.
Lemma destroy_ww : forall n h log fwd sq, rel X (destroy n h log fwd sq).
Proof.
  induction n; intros h log fwd sq; cbn [destroy]; [rel_auto|].
  assert (R : forall h txt fwd sq, rel X (Destroy_Found h txt fwd sq)) by (intros; apply Destroy_Found_ww).
  rel_go; auto.
Qed.
Lemma Client_Destroy_ww : forall h log fwd sq, rel X (Client_Destroy h log fwd sq).
Proof. intros. unfold Client_Destroy. apply rel_bind; [rel_auto|intro n]. apply destroy_ww. Qed.
#[local] Hint Extern 0 (rel _ (Client_Destroy _ _ _ _)) => apply Client_Destroy_ww : rel.
#[local] Hint Resolve closing_rel closed_rel : rel.
Lemma Conn_Close_ww : forall i log fwd inform, rel X (Conn_Close i log fwd inform).
Proof.
  intros i log fwd inform s a s' H. unfold Conn_Close in H. bd H as c s1 H1. same H1. destruct (co_closing c); [xlast H|].
  bd H as u s1 H1. same H1. bd H as u1 s1 H1. transitivity s1. { revert H1. apply closing_rel. } bd H as o s2 H2. same H2. bd H as u2 s2 H2. xstep s2 H2. bd H as u3 s3 H3. transitivity s3. { revert H3. apply closed_rel. }
  bd H as u4 s4 H4. xstep s4 H4. bd H as u5 s5 H5. xstep s5 H5. bd H as n s6 H6. rdgets H6. bd H as u7 s7 H7. apply modify_ok in H7. subst s7.
  bd H as u8 s8 H8. apply assertM_ok in H8. destruct H8 as [_ ->]. apply modify_ok in H. subst s'. apply (ps (l := L_codel)). apply (p_codel s5 i).
Qed.
End D.

#[export] Instance ww_close : forall b s0, PS L_close (also wf (ww b s0)).
Proof. intros b s0 s s' H. inversion H; subst. eapply Conn_Close_ww; eauto. Qed.
#[export] Instance ww_destroy : forall b s0, PS L_destroy (also wf (ww b s0)).
Proof. intros b s0 s s' H. inversion H; subst. eapply Client_Destroy_ww; eauto. Qed.
Lemma chore_ww : forall b s0 s s', chore s s' -> also wf (ww b s0) s s'.
Proof. intros b s0 s s' H. apply chore_rel. exact H. Qed.
Lemma numeric_ww : forall s0 h req, relp (cfact h (fun c => cl_type c = T_SERVER \/ cl_type c = T_UNKNOWNSERVER)) (also wf (ww false s0)) (Handle_Numeric h req).
Proof. intros. apply Handle_Numeric_relp. Qed.
Lemma others_ww : forall s0, others (also wf (ww false s0)) ["NICK"; "SVSNICK"]%string.
Proof. intro s0. others_tac. Qed.

(** ---- from one state to another ---- *)
Definition tracks (b : bool) (s s' : state) : Prop := exists gone, departures s s' gone /\ (ww_ok s -> remembered s' = firstn 64 (map snd gone ++ remembered s)) /\
  (b = true -> forall h e c, In (h, e) gone -> lookup h (s_heap s) = Some c -> tells s c e).
Lemma strlcpy_firstn : forall n t, 0 < n -> strlcpy n t = firstn (n - 1) t.
Proof. intros n t L. unfold strlcpy. destruct (Nat.leb_spec n (List.length t)); [reflexivity|]. rewrite firstn_all2; [reflexivity|lia]. Qed.
Lemma a_user_is : forall c, a_user c <-> userish (cl_type c) = true.
Proof. intro c. unfold a_user. destruct (cl_type c); cbn; split; intro H; try discriminate H; try (destruct H; discriminate); auto. Qed.
Lemma ww_tracks : forall b s s', ww b s s' -> tracks b s s'.
Proof.
  intros b s s' [W By Nw New (gone & G1 & G2 & G3 & G4)]. exists gone. split; [|split; [intro O; apply G1; auto|]].
  2: { intros Eb h e c I A. rewrite lookup_assoc in A. destruct (G3 _ _ I) as (M & N & c0 & c' & A0 & T & R & E1 & E2 & E3). rewrite A in A0. injection A0 as <-. destruct (E3 Eb) as (Q1 & Q2 & Q3 & j & Q4 & Q5). destruct R as (_ & _ & R). destruct (R Eb) as (R1 & _).
    split; [rewrite E2; unfold id_of; rewrite R1; apply strlcpy_firstn; unfold CLIENT_NICK_LEN; lia|]. split; [rewrite Q1; destruct (cl_user c); apply strlcpy_firstn; unfold CLIENT_USER_LEN; lia|]. split; [rewrite Q2; apply strlcpy_firstn; unfold CLIENT_INFO_LEN; lia|]. split.
    - intro Nx. rewrite Q3; [apply strlcpy_firstn; unfold CLIENT_HOST_LEN; lia|]. destruct (memb "x" (cl_modes c)) eqn:Ex; auto. exfalso. apply Nx. apply memb_In. exact Ex.
    - intros i p Ei Ap. rewrite Q4 in Ei. injection Ei as ->. rewrite lookup_assoc in Ap. destruct (Q5 (wf_lt _ _ _ W Ap)) as (p' & Ap' & ->). rewrite Ap in Ap'. injection Ap' as <-. apply strlcpy_firstn. unfold CLIENT_HOST_LEN. lia. }
  split; auto.
  - intros h e I. destruct (G3 _ _ I) as (M & N & c & c' & A & T & R & E1 & E2 & _). split; auto. exists c. rewrite lookup_assoc. split; auto. split; [unfold long_known; lia|]. split; [|split; auto].
    + intros x J. rewrite lookup_assoc in J. congruence.
    + intro U. apply a_user_is in U. destruct R as (_ & R & _). destruct (R U) as [_ R']. rewrite E2, strlcpy_firstn by (unfold CLIENT_NICK_LEN; lia). unfold id_of. rewrite R'. reflexivity.
  - intros h c A U T M L. rewrite lookup_assoc in A. apply a_user_is in U. assert (Lt : h < s_next s) by (eapply wf_lt; eauto). unfold long_known in T. destruct (G4 h c Lt A U) as [I|(c' & A')]; auto; [lia|]. exfalso.
    destruct By as (_ & _ & By). destruct (By _ _ Lt A') as (c0 & A0 & _ & R & _). rewrite A in A0. injection A0 as <-. destruct (R U) as [_ R']. apply (L c'); [rewrite lookup_assoc; exact A'|exact R'].
Qed.
Definition steady (s s' : state) : Prop := fconf s s' /\ fheap s s' /\ fww s s'.
#[export] Instance steady_po : PreOrder steady.
Proof. split; [intro s; repeat split; reflexivity || (intro; apply orel_refl, cl_same_refl)|]. intros x y z (A1 & A2 & A3) (B1 & B2 & B3). split; [etransitivity; eauto|]. split; etransitivity; eauto. Qed.
#[export] Instance steady_wr : WrSub steady.
Proof. intros s s' H. apply rt_step in H. split; [apply fconf_wr; exact H|]. split; [apply fheap_wr; exact H|apply wr_fww; exact H]. Qed.
#[export] Instance steady_conn : PS L_conn steady.
Proof. intros s s' H. inversion H; subst. split; [reflexivity|]. split; [|repeat split]. split; reflexivity || (intro; apply orel_refl, cl_same_refl). Qed.
#[export] Instance steady_wc : PS L_wc steady.
Proof. intros s s' H. inversion H; subst. split; [reflexivity|]. split; [|repeat split]. split; reflexivity || (intro; apply orel_refl, cl_same_refl). Qed.
Lemma steady_cli : forall s s' h c, steady s s' -> assoc h (s_heap s) = Some c -> exists x, assoc h (s_heap s') = Some (set_cl_cloaked x c).
Proof. intros s s' h c (_ & F & _) A. pose proof (fh_cli _ _ F h) as O. rewrite A in O. destruct (assoc h (s_heap s')) as [d|]; [|destruct O]. destruct O as [x ->]. eauto. Qed.
Lemma steady_back : forall s s' h c, steady s s' -> assoc h (s_heap s') = Some c -> exists d x, assoc h (s_heap s) = Some d /\ c = set_cl_cloaked x d.
Proof. intros s s' h c (_ & F & _) A. pose proof (fh_cli _ _ F h) as O. rewrite A in O. destruct (assoc h (s_heap s)) as [d|]; [|destruct O]. destruct O as [x ->]. eauto. Qed.
Lemma tracks_pre : forall b s s1 s', steady s s1 -> tracks b s1 s' -> tracks b s s'.
Proof.
  intros b s s1 s' S (gone & [D1 D2 D3] & R & R'). pose proof S as (C & _ & (F1 & F2 & F3)). exists gone. split; [|split].
  - split; auto.
    + intros h e I. destruct (D2 _ _ I) as (M & c & A & T & L & E1 & E2). rewrite lookup_assoc in A. destruct (steady_back _ _ _ _ S A) as (d & x & A' & ->). unfold fconf in C. rewrite C in M. split; auto. exists d. rewrite lookup_assoc. split; auto.
      unfold long_known in *. rewrite F3 in T. split; [exact T|]. split; [exact L|]. split; [congruence|exact E2].
    + intros h c A U T M L. rewrite lookup_assoc in A. destruct (steady_cli _ _ _ _ S A) as (x & A'). unfold fconf in C. eapply (D3 h (set_cl_cloaked x c)); [rewrite lookup_assoc; exact A'|exact U|unfold long_known in *; rewrite F3; exact T|rewrite C; exact M|exact L].
  - intro O. rewrite <- (remembered_same s s1) by auto. apply R. unfold ww_ok in *. rewrite F1, F2. exact O.
  - intros Eb h e c I A. rewrite lookup_assoc in A. destruct (steady_cli _ _ _ _ S A) as (x & A'). rewrite <- lookup_assoc in A'. destruct (R' Eb _ _ _ I A') as (T1 & T2 & T3 & T4 & T5). split; [exact T1|]. split; [exact T2|]. split; [exact T3|]. split; [exact T4|].
    intros i p Ei Ap. rewrite lookup_assoc in Ap. destruct (steady_cli _ _ _ _ S Ap) as (y & Ap'). rewrite <- lookup_assoc in Ap'. exact (T5 _ _ Ei Ap').
Qed.
Lemma tracks_post : forall b s s1 s', steady s1 s' -> tracks b s s1 -> tracks b s s'.
Proof.
  intros b s s1 s' S (gone & [D1 D2 D3] & R & R'). pose proof S as (C & _ & (F1 & F2 & F3)). exists gone. split; [|split].
  - split; auto.
    + intros h e I. destruct (D2 _ _ I) as (M & c & A & T & L & E). split; auto. exists c. split; auto. split; auto. split; auto. intros c' A'. rewrite lookup_assoc in A'. destruct (steady_back _ _ _ _ S A') as (d & x & A2 & ->). apply (L d). rewrite lookup_assoc. exact A2.
    + intros h c A U T M L. apply (D3 h c); auto. intros c' A'. rewrite lookup_assoc in A'. destruct (steady_cli _ _ _ _ S A') as (x & A2). apply (L (set_cl_cloaked x c')). rewrite lookup_assoc. exact A2.
  - intro O. rewrite (remembered_same s1 s') by auto. auto.
  - exact R'.
Qed.
(** a client is renamed *)
Lemma rename_tracks : forall b h new c s s1 s', assoc h (s_heap s) = Some c -> Client_RegisterWhowas h s = Ok tt s1 -> Client_SetID h new s1 = Ok tt s' -> strlcpy CLIENT_ID_LEN new <> cl_id c -> tracks b s s'.
Proof.
  intros b h new c s s1 s' A H1 H2 Ne. unfold Client_SetID in H2. bd H2 as k s2 H3. unfold cf in H3. rdgets H3. apply upd_cli_ok in H2. destruct H2 as (c1 & A1 & ->).
  set (k := cf_cloakusertonick (s_conf s1)). clearbody k.
  assert (OTH : forall j d', s_heap s1 = s_heap s1 -> lookup j (s_heap (set_s_heap (aupd h (set_id k new) (s_heap s1)) s1)) = Some d' -> exists d1, assoc j (s_heap s1) = Some d1 /\ (j = h -> cl_id d' = strlcpy CLIENT_ID_LEN new) /\ (j <> h -> d' = d1)).
  { intros j d' _ J. rewrite lookup_assoc in J. cbn [s_heap set_s_heap] in J. rewrite assoc_aupd in J. destruct (Nat.eqb_spec h j).
    - subst j. rewrite A1 in J. cbn in J. injection J as <-. exists c1. split; auto. split; [intros _; unfold set_id; destruct k; reflexivity|congruence].
    - exists d'. split; auto. split; [congruence|auto]. }
  assert (KEEP : forall j d1, j <> h -> assoc j (s_heap s1) = Some d1 -> lookup j (s_heap (set_s_heap (aupd h (set_id k new) (s_heap s1)) s1)) = Some d1).
  { intros j d1 N J. rewrite lookup_assoc. cbn [s_heap set_s_heap]. rewrite assoc_aupd. destruct (Nat.eqb_spec h j); [congruence|exact J]. }
  apply register_ok in H1. destruct H1 as [[-> N]|(Mp & c0 & A0 & T & s2 & e & Wr & Tl & E)].
  - exists []. split; [|split; [intros _; cbn [map app]; rewrite (firstn_all2 (remembered s)); [apply remembered_same; reflexivity|rewrite remembered_len; auto]|intros _ j e d []]]. split; [constructor|intros j e []|].
    intros j d J U L M LR. rewrite lookup_assoc in J. destruct (Nat.eq_dec j h) as [-> |Nj].
    + exfalso. destruct N as [N|(d2 & J2 & N)]; [congruence|]. rewrite J in J2. injection J2 as <-. unfold long_known in L. lia.
    + exfalso. apply (LR d); auto.
  - assert (Ec : c0 = c) by congruence. subst c0. subst s1. cbn [s_heap set_s_lastww set_s_whowas] in *. pose proof (wr_fww _ _ Wr) as (Q1 & Q2 & Q3). exists [(h, e)]. split; [|split].
    + split.
      * constructor; [intros []|constructor].
      * intros j e' [I|[]]. injection I as <- <-. split; auto. exists c. rewrite lookup_assoc. split; auto. split; [unfold long_known; lia|]. split; [|split; [apply Tl|]].
        { intros c' J. destruct (OTH _ _ eq_refl J) as (d1 & _ & O1 & _). rewrite O1; auto. }
        { intros _. rewrite (tl_id _ _ _ Tl), strlcpy_firstn by (unfold CLIENT_NICK_LEN; lia). reflexivity. }
      * intros j d J U L M LR. rewrite lookup_assoc in J. destruct (Nat.eq_dec j h) as [-> |Nj]; [left; reflexivity|]. exfalso. destruct (wr_cli _ _ _ _ Wr J) as (x & J1). apply (LR _ (KEEP _ _ Nj J1)). reflexivity.
    + intro O. assert (O2 : ww_ok s2) by (unfold ww_ok; rewrite Q1, Q2; exact O). pose (y := set_s_heap (aupd h (set_id k new) (s_heap s2)) (set_s_lastww (slot_of (s_lastww s2)) (set_s_whowas (upd_nth (Z.to_nat (slot_of (s_lastww s2))) (fun _ : whowas => e) (s_whowas s2)) s2))). destruct (push_ok s2 y e O2 eq_refl eq_refl) as [_ Ey]. change (remembered y = firstn 64 (map snd [(h, e)] ++ remembered s)). rewrite Ey.
      cbn [map snd app]. rewrite (remembered_same _ _ Q1 Q2). reflexivity.
    + intros _ j e' d [I|[]] J. injection I as <- <-. rewrite lookup_assoc in J. rewrite A in J. injection J as <-. destruct Tl as [TT TI TU TF TH (i & p & P1 & P2 & P3)].
      split; [rewrite TI; apply strlcpy_firstn; unfold CLIENT_NICK_LEN; lia|]. split; [rewrite TU; destruct (cl_user c); apply strlcpy_firstn; unfold CLIENT_USER_LEN; lia|]. split; [rewrite TF; apply strlcpy_firstn; unfold CLIENT_INFO_LEN; lia|]. split.
      * intro Nx. rewrite TH. unfold shown_host. destruct (memb "x" (cl_modes c)) eqn:Ex; [exfalso; apply Nx; apply memb_In; exact Ex|]. apply strlcpy_firstn. unfold CLIENT_HOST_LEN. lia.
      * intros i' p' Ei Ap. rewrite P1 in Ei. injection Ei as <-. rewrite lookup_assoc in Ap. rewrite P2 in Ap. injection Ap as <-. rewrite P3. apply strlcpy_firstn. unfold CLIENT_HOST_LEN. lia.
Qed.

Lemma Change_Nick_tracks : forall b origin h new inform s a s' c, Change_Nick origin h new inform s = Ok a s' -> assoc h (s_heap s) = Some c -> strlcpy CLIENT_ID_LEN new <> cl_id c -> tracks b s s'.
Proof.
  intros b origin h new inform s a s' c H A Ne. unfold Change_Nick in H.
  bd H as o s1 H1. same H1. bd H as u1 s1 H1. assert (K1 : steady s s1) by xlast H1. bd H as u2 s2 H2. assert (K2 : steady s1 s2) by xlast H2.
  bd H as u3 s3 H3. assert (K3 : steady s2 s3) by xlast H3. assert (K : steady s s3) by (transitivity s1; [exact K1|transitivity s2; [exact K2|exact K3]]). clear H1 H2 H3 K1 K2 K3.
  bd H as u4 s4 H4. destruct u4, a. destruct (steady_cli _ _ _ _ K A) as (x & A3). eapply tracks_pre; [exact K|]. eapply rename_tracks; [exact A3|exact H4|exact H|exact Ne].
Qed.
Lemma steady_X : forall b s0 s s', steady s s' -> wf s' -> also wf (ww b s0) s s'.
Proof. intros b s0 s s' (F1 & F2 & F3) W' W. split; auto. apply ww_f; auto. Qed.
Lemma setid_quiet : forall s0 h new s s' c, Client_SetID h new s = Ok tt s' -> nick_ok h new s -> assoc h (s_heap s) = Some c -> userish (cl_type c) = false -> also wf (ww false s0) s s'.
Proof.
  intros s0 h new s s' c H (c1 & A1 & N) A U W. unfold Client_SetID in H. bd H as u s1 H1. unfold cf in H1. rdgets H1. apply upd_cli_ok in H.
  destruct H as (c0 & Hc0 & ->). rewrite A in A1. injection A1 as <-. split.
  - eapply (ps (l := L_id) (X := pres wf)); [|exact W]. eapply p_id; eauto; destruct N as [[N1 N2]|[N1 N2]]; auto.
  - eapply ww_set; [reflexivity|reflexivity|repeat split|reflexivity|exact A|]. split; [unfold set_id; ifs; reflexivity|]. split; [congruence|discriminate].
Qed.
#[local] Hint Extern 2 (rel _ (upd_con _ _)) => (apply upd_cconn_rel; intros []; split; reflexivity) : rel.
Lemma nick_new_quiet : forall s0 client target new s a s' ct, nick_new client target new s = Ok a s' ->
  nick_ok target new s -> assoc target (s_heap s) = Some ct -> nick_self client target ct s -> userish (cl_type ct) = false -> also wf (ww false s0) s s'.
Proof.
  intros s0 client target new s a s' ct H N Hct S U. unfold nick_new in H.
  bd H as u s1 H1. destruct u. transitivity s1; [eapply setid_quiet; eauto|].
  assert (F : exists cc, assoc client (s_heap s1) = Some cc /\ ((cl_id cc <> [] /\ (cl_type cc = T_UNKNOWN \/ cl_type cc = T_GOTPASS \/ cl_type cc = T_GOTNICK \/ cl_type cc = T_GOTUSER)) \/ cl_type cc = T_SERVER)).
  { pose proof (nick_ok_nonempty _ _ _ N) as Ne. unfold Client_SetID in H1. bd H1 as u sx Hx. unfold cf in Hx. rdgets Hx. apply upd_cli_ok in H1.
    destruct H1 as (c0 & Hc0 & ->). cbn [s_heap set_s_heap]. destruct S as [[-> S]|[S (cc & Hcc & T)]].
    - rewrite assoc_aupd, Nat.eqb_refl, Hct. cbn. eexists. split; [reflexivity|]. left. split.
      + unfold set_id. destruct (cf_cloakusertonick (s_conf s)); cbn; apply strlcpy_nonempty; auto; unfold CLIENT_ID_LEN; lia.
      + unfold set_id. destruct (cf_cloakusertonick (s_conf s)); exact S.
    - rewrite assoc_aupd. replace (Nat.eqb target client) with false by (symmetry; apply Nat.eqb_neq; auto). exists cc. split; auto. }
  clear H1 S Hct U ct N.
  bd H as ap s2 H2. same H2. bd H as u s2 H2. xstep s2 H2. assert (K : ksame s1 s2) by xlast H2.
  destruct F as (cc & Hcc & F). destruct (ks_cli _ _ _ _ K Hcc) as (c2 & Hc2 & (E1 & _ & E2 & _)).
  bd H as gu s3 H3. apply is_type_ok in H3. destruct H3 as (-> & c3 & Hc3 & ->). rewrite Hc2 in Hc3. inversion Hc3; subst c3. clear Hc3.
  destruct (ctype_eqb (cl_type c2) T_GOTUSER) eqn:G.
  { apply ctype_eqb_eq in G. eapply Login_User_relp; [|exact H]. exists c2. split; auto. right. split; auto. rewrite E1. destruct F as [[F _]|F]; auto. congruence. }
  bd H as u3 s3 H3. rdret H. destruct u3. eapply settype_step; eauto.
  assert (G' : cl_type c2 <> T_GOTUSER) by (intro Q; rewrite Q in G; discriminate).
  split; try discriminate.
  - left. rewrite E2. destruct F as [[_ [-> |[-> |[-> | ->]]]]| ->]; reflexivity.
  - intro E. exfalso. rewrite E2 in E. destruct F as [[_ [F|[F|[F|F]]]]|F]; congruence.
  - rewrite E1, E2. destruct F as [[N F]|F]; [|auto]. do 5 right. split; [destruct F as [-> |[-> |[-> | ->]]]; reflexivity|auto].
Qed.
Lemma X_tracks : forall b s s', wf s -> also wf (ww b s) s s' -> tracks b s s'.
Proof. intros b s s' W F. destruct (F W) as [_ F1]. eapply ww_tracks. apply F1. apply ww_refl. exact W. Qed.
Lemma nick_change_tracks : forall b client target new s a s' c, wf s -> nick_change client target new s = Ok a s' -> assoc target (s_heap s) = Some c -> strlcpy CLIENT_ID_LEN new <> cl_id c -> tracks b s s'.
Proof.
  intros b client target new s a s' c W H A Ne. unfold nick_change in H. bd H as usr s1 H1. same H1. bd H as op s1 H2. same H2. bd H as l s1 H3. same H3.
  bd H as n s1 H4. assert (s1 = s). { destruct (usr && negb op); same H4; reflexivity. } subst s1. destruct n.
  { apply X_tracks; auto. xlast H. }
  bd H as u s1 H5. eapply tracks_post; [|eapply Change_Nick_tracks; eauto]. xlast H.
Qed.
Record ready (s : state) : Prop := mk_ready { rd_wf : wf s; rd_icli : icli s; rd_conf : conf_ok (s_conf s) }.
Lemma nick_target_tracks : forall b client target new s a s', ready s -> nick_target client target new s = Ok a s' ->
  (client = target /\ cfact client (fun c => match cl_type c with T_UNKNOWN | T_GOTPASS | T_GOTNICK | T_GOTUSER | T_USER | T_SERVICE => True | _ => False end) s
   \/ cfact client (fun c => cl_type c = T_SERVER) s) -> (b = true -> cfact target (fun c => cl_type c = T_USER) s) -> tracks b s s'.
Proof.
  intros b client target new s a s' Lv H P BT. pose proof (rd_wf _ Lv) as W. unfold nick_target in H. bd H as id s1 H1. apply Client_ID_ok in H1. destruct H1 as [-> (ct & Hct & Hid)].
  destruct (beq id new) eqn:Eb. { apply X_tracks; auto. xlast H. } bd H as ok s1 H1.
  destruct ok; cbn [negb] in H.
  2: { apply X_tracks; auto. transitivity s1; [xlast H1|xlast H]. }
  assert (N : s1 = s /\ nick_ok target new s /\ strlcpy CLIENT_ID_LEN new <> cl_id ct).
  { assert (Q : strlcpy CLIENT_ID_LEN new = new -> new <> [] -> strlcpy CLIENT_ID_LEN new <> cl_id ct).
    { intros -> Nn E. subst id. unfold id_of in Eb. destruct (cl_id ct) eqn:Ei; [congruence|]. rewrite E in Eb. rewrite beq_refl in Eb. discriminate. }
    destruct (caseeq id new) eqn:Ec; cbn [negb] in H1.
    - rdret H1. split; auto. assert (Nn : cl_id ct <> []).
      { intro E. subst id. unfold id_of in *. rewrite E in *. assert (new = B "*"); [|subst; discriminate Eb].
        destruct new as [|x [|y new]]; try discriminate Ec; [|unfold caseeq in Ec; cbn in Ec; rewrite andb_false_r in Ec; discriminate Ec].
        f_equal. revert Ec. clear. unfold caseeq. destruct x as [[] [] [] [] [] [] [] []]; intro H; try reflexivity; discriminate H. }
      assert (Ei : id = cl_id ct) by (subst id; unfold id_of; destruct (cl_id ct); congruence). rewrite Ei in Ec. split; [exists ct; split; auto|].
      apply Q; [|eapply caseeq_nonempty; eauto]. pose proof (rd_icli _ Lv _ _ Hct) as G. unfold strlcpy. rewrite <- (caseeq_len _ _ Ec). pose proof (cg_id _ G). destruct (Nat.leb_spec CLIENT_ID_LEN (List.length (cl_id ct))); [lia|reflexivity].
    - apply CheckNick_ok in H1. destruct H1 as (-> & V & Hs). split; auto. split; [exists ct; split; auto; left; split; auto; apply search_id_free; auto|]. apply Q; [|eapply valid_nick_nonempty; eauto].
      eapply valid_nick_short; [exact V|]. apply (rd_conf _ Lv). }
  destruct N as (-> & N & Ne). clear H1. bd H as t s1 H1. apply Client_Type_ok in H1. destruct H1 as (-> & c & Hc & ->).
  rewrite Hct in Hc. inversion Hc; subst c. clear Hc.
  assert (A : match cl_type ct with T_USER | T_SERVICE | T_SERVER => True | _ => nick_self client target ct s end).
  { destruct P as [[-> (c & Hc & P)]|(c & Hc & P)].
    - rewrite Hct in Hc. inversion Hc; subst c. destruct (cl_type ct) eqn:E; auto; try contradiction; left; rewrite E; auto.
    - destruct (Nat.eq_dec client target) as [-> |Nq].
      + rewrite Hct in Hc. inversion Hc; subst c. rewrite P. auto.
      + destruct (cl_type ct); auto; right; split; auto; exists c; auto. }
  destruct (cl_type ct) eqn:E; try (eapply nick_change_tracks; eauto; fail); (destruct b; [exfalso; destruct (BT eq_refl) as (c & Hc & Tc); congruence|apply X_tracks; [exact W|]; eapply nick_new_quiet; eauto; rewrite E; reflexivity]).
Qed.
Lemma NICK_tracks : forall b h req s a s', ready s -> attached h s -> IRC_NICK h req s = Ok a s' -> (b = true -> cfact h (fun c => cl_type c = T_USER) s) -> tracks b s s'.
Proof.
  intros b h req s a s' Lv L H BT. pose proof (rd_wf _ Lv) as W. unfold IRC_NICK in H. bd H as t s1 H1. apply Client_Type_ok in H1. destruct H1 as (-> & c & Hc & ->). cbv zeta in H.
  assert (SELF : match cl_type c with T_UNKNOWN | T_GOTPASS | T_GOTNICK | T_GOTUSER | T_USER | T_SERVICE => True | _ => False end ->
    (if argc req =? 1 then r <- Client_HasMode h "r" ;; if r then IRC_WriteErrClient h ERR_RESTRICTED_MSG [aID h] else nick_target h h (arg req 0) else need_more h req) s = Ok a s' -> tracks b s s').
  { intros T R. destruct (argc req =? 1); [|apply X_tracks; auto; xlast R]. bd R as r s1 R1. same R1. destruct r; [apply X_tracks; auto; xlast R|]. eapply nick_target_tracks; eauto. left. split; auto. exists c. auto. }
  destruct (cl_type c) eqn:T; try (apply SELF; [exact I|exact H]); try (apply X_tracks; auto; xlast H).
  destruct (argc req =? 1).
  - unfold with_prefix in H. destruct (rq_prefix req); [|apply X_tracks; auto; xlast H]. bd H as o s1 H1. same H1. destruct o; [|apply X_tracks; auto; xlast H].
    eapply nick_target_tracks; eauto; [right; exists c; auto|]. intro Eb. exfalso. destruct (BT Eb) as (c1 & Hc1 & T1). congruence.
  - destruct b. { exfalso. destruct (BT eq_refl) as (c1 & Hc1 & T1). congruence. } apply X_tracks; auto. eapply nick_introduce_relp; [|exact H]. split; auto. exists c. auto.
Qed.
Lemma SVSNICK_tracks : forall b h req s a s', ready s -> IRC_SVSNICK h req s = Ok a s' -> tracks b s s'.
Proof.
  intros b h req s a s' Lv H. pose proof (rd_wf _ Lv) as W. unfold IRC_SVSNICK, with_prefix in H. destruct (rq_prefix req); [|apply X_tracks; auto; xlast H].
  bd H as o s1 H1. same H1. cbv zeta in H. bd H as ot s1 H1. pose proof (Client_Search_ok _ _ _ _ H1) as [-> Hs].
  bd H as ok s1 H2. assert (s1 = s). { destruct ot; same H2; reflexivity. } subst s1. clear H2.
  destruct ok, ot as [x|]; try (apply X_tracks; auto; xlast H). bd H as oc s1 H2. same H2. destruct oc; [|apply X_tracks; auto; xlast H].
  destruct Hs as (Hx & cx & Hcx & _).
  bd H as ok s1 H2. destruct ok; cbn [negb] in H; [|apply X_tracks; auto; transitivity s1; [xlast H2|xlast H]]. apply CheckNick_ok in H2. destruct H2 as (-> & V & Hs).
  bd H as u s1 H2. rdret H. eapply Change_Nick_tracks; [exact H2|exact Hcx|]. pose proof (valid_nick_short _ _ V (proj2 (proj1 (rd_conf _ Lv)))) as Es.
  intro E. pose proof (search_id_free (S x) _ _ Hs) as F. rewrite E in F. destruct (rd_icli _ Lv _ _ Hcx) as [G1 G2 _ _ _]. rewrite Es in E.
  assert (Pl : plain_id (cl_id cx)).
  { rewrite <- E. unfold valid_nick in V. rewrite !andb_true_iff in V. destruct V as [[V0 V1] V2]. split; [intro Z; rewrite Z in V0; discriminate V0|]. apply Nat.ltb_lt in V1. pose proof (proj2 (proj1 (rd_conf _ Lv))) as Mx. unfold CLIENT_NICK_LEN in Mx.
    split; [lia|]. destruct (memb "!" (arg req 1)) eqn:Z; auto. apply memb_In in Z. rewrite forallb_forall in V2. apply V2 in Z. discriminate Z. }
  assert (Hh : cl_hash cx = Hash (cl_id cx)). { destruct G2 as [G2|G2]; auto. exfalso. destruct Pl as [Pl _]. auto. }
  specialize (F Pl x cx Hx Hcx ltac:(lia) Hh). rewrite caseeq_refl in F. discriminate F.
Qed.
Lemma line_client0 : forall s i text b s', Parse_Request i text s = Ok b s' -> wr s s' \/ exists h c, client_of s i h c.
Proof.
  intros s i text b s' H. unfold Parse_Request in H. cbv zeta in H. bd H as sc s1 H1. unfold cf in H1. rdgets H1.
  destruct (cf_scrubctcp (s_conf s) && ScrubCTCP (trim text)). { apply ret_ok in H. destruct H as [_ ->]. left. apply wr_refl. }
  destruct (parse_line (trim text)) as [req|]; [right|left; xlast H].
  bd H as v s1 H1. unfold Validate_Prefix in H1. bd H1 as o s2 H2. unfold Conn_GetClient in H2. bd H2 as cn s3 H3. apply con_ok in H3. destruct H3 as [-> H4]. apply ret_ok in H2. destruct H2 as [-> ->].
  bd H1 as h s2 H2. apply nonnull_ok in H2. destruct H2 as [E ->]. bd H1 as t s2 H2. apply Client_Type_ok in H2. destruct H2 as (-> & c & Hc & ->). exists h, c. split; [|rewrite lookup_assoc; exact Hc].
  destruct H4 as [H4|[_ ->]]; [exists cn; rewrite lookup_assoc; auto|discriminate E].
Qed.
Lemma action_cases : forall s s', live s -> action s s' ->
  also wf (ww false s) s s' \/ exists i h c text cmd req s1 b, command_run s i h c text cmd req s1 b s' /\ existsb (String.eqb (cm_name cmd)) ["NICK"; "SVSNICK"]%string = true.
Proof.
  intros s s' L H. pose proof (live_wf _ L) as W. destruct H as [i text b s s' H|s s' H]; [|left; apply chore_ww; auto].
  destruct (line_client0 _ _ _ _ _ H) as [Wr|(h & c & C)]; [left; eapply wr_incl; [exact _..|exact Wr]|].
  destruct (line_cases _ _ _ _ _ _ _ C H) as [A|[[Q (req & HN)]|(cmd & req & s1 & R)]].
  - left. eapply answered_X; [exact _..|exact A].
  - left. eapply numeric_ww; [|exact HN]. destruct C as [_ C]. rewrite lookup_assoc in C. exists c. auto.
  - destruct (existsb (String.eqb (cm_name cmd)) ["NICK"; "SVSNICK"]%string) eqn:E.
    + right. exists i, h, c, text, cmd, req, s1, b. auto.
    + left. transitivity s1; [eapply prepared_X; [exact _..|apply R]|]. eapply others_use; [apply others_ww|apply R|exact E|apply R|apply R].
Qed.
Theorem action_tracks : forall s s', live s -> action s s' -> tracks false s s'.
Proof.
  intros s s' L H. pose proof (live_wf _ L) as W. destruct (action_cases _ _ L H) as [K|(i & h & c & text & cmd & req & s1 & b & R & E)]; [apply X_tracks; auto|].
  pose proof (prepared_X steady _ _ _ _ _ (cr_prep _ _ _ _ _ _ _ _ _ _ R)) as P. eapply tracks_pre; [exact P|].
  assert (Rd : ready s1).
  { destruct (prepared_X (also wf icli) _ _ _ _ _ (cr_prep _ _ _ _ _ _ _ _ _ _ R) W) as [W1 I1]. split; auto; [apply I1; apply live_icli; auto|]. destruct P as (P1 & _). unfold fconf in P1. rewrite P1. apply live_conf. auto. }
  pose proof (cr_run _ _ _ _ _ _ _ _ _ _ R) as RUN. pose proof (cr_in _ _ _ _ _ _ _ _ _ _ R) as CIN. pose proof (cr_pre1 _ _ _ _ _ _ _ _ _ _ R) as Pre.
  cbn [existsb] in E. rewrite orb_false_r in E. apply orb_true_iff in E. destruct E as [E|E]; apply String.eqb_eq in E.
  - rewrite (cmd_of "NICK" IRC_NICK US_ANY 0 None 0 ltac:(in_cmds) _ CIN E) in RUN. eapply NICK_tracks; [exact Rd|apply Pre|exact RUN|discriminate].
  - rewrite (cmd_of "SVSNICK" IRC_SVSNICK US_S 2 (Some 2) 0 ltac:(in_cmds) _ CIN E) in RUN. eapply SVSNICK_tracks; [exact Rd|exact RUN].
Qed.

Lemma others_tell : forall s0, others (also wf (ww true s0)) changing.
Proof. intro s0. unfold changing. others_tac. Qed.
Lemma numeric_tell : forall s0 h req, relp (cfact h (fun c => cl_type c = T_SERVER \/ cl_type c = T_UNKNOWNSERVER)) (also wf (ww true s0)) (Handle_Numeric h req).
Proof. intros. apply Handle_Numeric_relp. Qed.
Theorem line_tells : forall s i h c text b s', live s -> client_of s i h c -> Parse_Request i text s = Ok b s' ->
  ~ a_line_of text changing \/ (cl_type c = T_USER /\ exists args, says text "NICK" args) -> tracks true s s'.
Proof.
  intros s i h c text b s' L C H K. pose proof (live_wf _ L) as W.
  destruct (line_cases _ _ _ _ _ _ _ C H) as [A|[[Q (req & HN)]|(cmd & req & s1 & R)]].
  - apply X_tracks; auto. eapply answered_X; [exact _..|exact A].
  - apply X_tracks; auto. eapply numeric_tell; [|exact HN]. destruct C as [_ C]. rewrite lookup_assoc in C. exists c. auto.
  - destruct K as [K|[T (args & K)]].
    + apply X_tracks; auto. destruct (existsb (String.eqb (cm_name cmd)) changing) eqn:E; [exfalso; apply K; eapply run_says; eauto|].
      transitivity s1; [eapply prepared_X; [exact _..|apply R]|]. eapply others_use; [apply others_tell|apply R|exact E|apply R|apply R].
    + pose proof (prepared_X steady _ _ _ _ _ (cr_prep _ _ _ _ _ _ _ _ _ _ R)) as P. eapply tracks_pre; [exact P|].
      assert (Rd : ready s1).
      { destruct (prepared_X (also wf icli) _ _ _ _ _ (cr_prep _ _ _ _ _ _ _ _ _ _ R) W) as [W1 I1]. split; auto; [apply I1; apply live_icli; auto|]. destruct P as (P1 & _). unfold fconf in P1. rewrite P1. apply live_conf. auto. }
      pose proof (cr_run _ _ _ _ _ _ _ _ _ _ R) as RUN. pose proof (cr_in _ _ _ _ _ _ _ _ _ _ R) as CIN. pose proof (cr_pre1 _ _ _ _ _ _ _ _ _ _ R) as Pre.
      assert (E : cm_name cmd = "NICK"%string).
      { destruct K as (p2 & nm & K1 & K2). destruct (cr_parse _ _ _ _ _ _ _ _ _ _ R) as (p & PL). rewrite PL in K1. injection K1 as _ K3 _. rewrite <- K3 in K2. eapply (same_cmd (rq_command req)); [exact CIN|exact (cr_name _ _ _ _ _ _ _ _ _ _ R)| |exact K2]. cbn. tauto. }
      rewrite (cmd_of "NICK" IRC_NICK US_ANY 0 None 0 ltac:(in_cmds) _ CIN E) in RUN. eapply NICK_tracks; [exact Rd|apply Pre|exact RUN|]. intros _. destruct C as [_ C]. rewrite lookup_assoc in C. destruct (steady_cli _ _ _ _ P C) as (x & A1). exists (set_cl_cloaked x c). split; auto.
Qed.
Theorem chore_tells : forall s s', live s -> chore s s' -> tracks true s s'.
Proof. intros s s' L H. apply X_tracks; [apply live_wf; exact L|]. apply chore_ww. exact H. Qed.
(** the events in which no line is executed *)
#[local] Hint Extern 0 (rel _ (Conn_Close _ _ _ _)) => apply Conn_Close_rel : rel.
#[local] Hint Extern 2 (rel _ (upd_con _ _)) => (apply upd_cconn_rel; intros []; split; reflexivity) : rel.
#[local] Hint Extern 3 (rel _ (upd_con _ _)) => (apply upd_cread_rel; intros []; split; reflexivity) : rel.
#[local] Hint Extern 1 (rel _ (upd_cli _ _)) => (apply upd_attr_rel; intro; split; [|reflexivity|reflexivity]) : rel.
Definition resolved (e : event) : bool := match e with E_Resolved _ _ => true | _ => false end.
Theorem silent_tells : forall e s s', live s -> silent e = true -> (forall t r, e <> E_Time t r) -> step e s = Ok tt s' -> tracks (negb (resolved e)) s s'.
Proof.
  intros e s s' L S Nt H. apply X_tracks; [apply live_wf; exact L|]. revert H. generalize tt as a. intros a H. unfold step in H. destruct e; try discriminate S; cbn [resolved negb].
  - exfalso. eapply Nt. reflexivity.
  - bd H as u s1 H1. unfold unused in H1. rdgets H1. unfold whenM in H. destruct (assoc i (s_conns s)) eqn:E; cbn [is_some negb] in H; [rdret H; reflexivity|].
    destruct a. apply (ps (l := L_accept)). eapply p_accept; eauto.
  - xlast H.
  - xlast H.
  - xlast H.
  - bd H as u s1 H1. unfold unused in H1. rdgets H1. bd H as m s1 H1. rdgets H1. unfold whenM in H. destruct (assoc i (s_conns s)) eqn:E; cbn [is_some negb andb] in H; [rdret H; reflexivity|].
    destruct (n <? List.length (s_servers s)); [|rdret H; reflexivity]. destruct a. apply (ps (l := L_newserver)). eapply p_newserver; eauto.
  - xlast H.
Qed.

(** the whole history *)
Lemma action_was : forall s s', live s -> action s s' -> exists gone, departures s s' gone /\ remembered s' = firstn 64 (map snd gone ++ remembered s).
Proof. intros s s' L H. destruct (action_tracks _ _ L H) as (gone & D1 & D2 & _). exists gone. split; auto. apply D2. apply live_wwok. exact L. Qed.
Lemma tracks_content : forall s s', live s -> tracks true s s' -> content s s'.
Proof. intros s s' L (gone & D1 & D2 & D3). exists gone. split; auto. split; [apply D2; apply live_wwok; exact L|apply D3; reflexivity]. Qed.
Lemma line_content : forall s i h c text b s', live s -> client_of s i h c -> Parse_Request i text s = Ok b s' ->
  ~ a_line_of text changing \/ (cl_type c = T_USER /\ exists args, says text "NICK" args) -> content s s'.
Proof. intros. apply tracks_content; auto. eapply line_tells; eauto. Qed.
Lemma chore_content : forall s s', live s -> chore s s' -> content s s'.
Proof. intros. apply tracks_content; auto. apply chore_tells; auto. Qed.
Lemma silent_no_lines : forall e, no_lines e -> silent e = true.
Proof. intros e (N1 & N2 & _). destruct e; try reflexivity; exfalso; [eapply N1|apply N2]; reflexivity. Qed.
Lemma event_was : forall e s s', live s -> no_lines e -> step e s = Ok tt s' -> exists gone, departures s s' gone /\ remembered s' = firstn 64 (map snd gone ++ remembered s).
Proof.
  intros e s s' L N H. destruct (silent_tells e s s' L (silent_no_lines _ N) ltac:(apply N) H) as (gone & D1 & D2 & _). exists gone. split; auto. apply D2. apply live_wwok. exact L.
Qed.
Lemma event_content : forall e s s', live s -> no_lines e -> (forall i host, e <> E_Resolved i host) -> step e s = Ok tt s' -> content s s'.
Proof.
  intros e s s' L N NR H. apply tracks_content; auto. pose proof (silent_tells e s s' L (silent_no_lines _ N) ltac:(apply N) H) as T. destruct e; try exact T. exfalso. eapply NR. reflexivity.
Qed.
Lemma time_was : forall t r s s', step (E_Time t r) s = Ok tt s' -> remembered s' = remembered s.
Proof. intros t r s s' H. unfold step in H. apply modify_ok in H. subst. reflexivity. Qed.
#[local] Instance fwws_wr : forall s0, WrSub (also wf (fww s0)).
Proof. intro s0. apply also_wr; [exact _|]. intros s s' H _ F. transitivity s; [exact F|]. apply wr_fww. apply rt_step. exact H. Qed.
Lemma fwws_ps : forall s0 l, wlab l = false -> PS l (pres wf) -> PS l (also wf (fww s0)).
Proof. intros s0 l T P s s' H W. split; [exact (P s s' H W)|]. intro F. transitivity s; [exact F|]. eapply ww_step; eauto. Qed.
#[local] Hint Extern 1 (PS _ (also wf (fww _))) => (apply fwws_ps; [reflexivity|exact _]) : typeclass_instances.
Lemma boot_was : forall c servers t r s, boot c servers t r = Ok tt s -> remembered s = repeat no_entry 64.
Proof.
  intros c servers t r s H. unfold boot in H. assert (R : rel (also wf (fww (init_state c servers t r))) Channel_InitPredefined) by rel_auto.
  destruct (R _ _ _ H (wf_init _ _ _ _)) as [_ F]. destruct (F ltac:(reflexivity)) as (F1 & F2 & _). unfold remembered. rewrite F1, F2. reflexivity.
Qed.
Definition kept (s : state) : Prop := exists g, history s g /\ remembered s = firstn 64 (g ++ repeat no_entry 64).
Lemma firstn_more : forall A (a b : list A) n, firstn n (a ++ firstn n b) = firstn n (a ++ b).
Proof. intros A a b n. rewrite !firstn_app, firstn_firstn. rewrite Nat.min_l by lia. reflexivity. Qed.
Lemma kept_step : forall s s' (gone : list (handle * whowas)), kept s -> (forall g, history s g -> history s' (map snd gone ++ g)) -> remembered s' = firstn 64 (map snd gone ++ remembered s) -> kept s'.
Proof. intros s s' gone (g & Hg & E) K R. exists (map snd gone ++ g). split; [apply K; exact Hg|]. rewrite R, E, firstn_more, app_assoc. reflexivity. Qed.
Lemma kept_action : forall s s', live s -> action s s' -> kept s -> kept s'.
Proof. intros s s' L A K. destruct (action_was _ _ L A) as (gone & D1 & D2). eapply kept_step; [exact K| |exact D2]. intros g Hg. eapply hs_action; eauto. Qed.
Lemma kept_reach : forall s, reachable s -> kept s.
Proof.
  intros s R. induction R as [c servers t r s K H|s e s' R IH H].
  - exists []. split; [eapply hs_boot; eauto|]. rewrite (boot_was _ _ _ _ _ H). reflexivity.
  - pose proof (V_reach _ R) as L.
    assert (D : (exists t r, e = E_Time t r) \/ ((exists i d, e = E_Data i d) \/ e = E_Loop) \/ no_lines e).
    { destruct e; try (right; right; split; [|split]; intros; discriminate); [left; eauto|right; left; left; eauto|right; left; right; reflexivity]. }
    destruct D as [(t & r & ->)|[D|D]].
    + destruct IH as (g & Hg & E). exists g. split; [eapply hs_time; eauto|]. rewrite (time_was _ _ _ _ H). exact E.
    + destruct (step_actions _ _ _ L D H) as [A _]. clear - A IH. induction A as [|a b c La Ab Abc IHA]; auto. apply IHA. eapply kept_action; eauto.
    + destruct (event_was _ _ _ L D H) as (gone & D1 & D2). eapply kept_step; [exact IH| |exact D2]. intros g Hg. eapply hs_event; eauto.
Qed.
Theorem live_kept : forall s, live s -> kept s.
Proof. intros s L. induction L as [s R|s s' L IH A]; [apply kept_reach; exact R|eapply kept_action; eauto]. Qed.
