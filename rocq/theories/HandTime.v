(** Penalties and timeouts. *)
From Coq Require Import List Ascii String ZArith NArith Bool Lia Arith.
From Coq Require Import Relations RelationClasses.
From Verif Require Import Bytes Match Lists Hash ParseReq State Messages Monad Core Write Info Chan Mode Msg Login Oper Server Dispatch Conn.
From Verif Require Import Rel RelWrite RelInfo RelBase RelChan RelSrv RelInit RelKey RelCmd RelComp WF RelGone Frame Inv2 Inv4 Live Spec Observ HandOper HandConn HandRead.
Import ListNotations.
Local Open Scope m_scope.

(** ---- penalties ---- *)
Definition later (c c' : conn) : Prop := (co_delaytime c <= co_delaytime c')%Z.
#[export] Instance later_quiet : Quiet later.
Proof.
  split; unfold later; intros; cbn [co_delaytime set_co_delaytime set_co_closing set_co_open]; try lia; try (apply penalty_grows; auto); destruct H; lia.
Qed.
#[export] Instance later_read : Readable later.
Proof. intros c c' []. unfold later. lia. Qed.
#[local] Hint Extern 0 (rel (also wf (byR _ _)) (Conn_Close _ _ _ _)) => apply Conn_Close_rel : rel.
#[local] Hint Extern 0 (rel (also wf (byR _ _)) (Read_Data _ _)) => apply Read_Data_rel : rel.
#[local] Hint Extern 0 (rel (also wf (byR _ _)) Main_Loop) => apply Main_Loop_rel : rel.
Lemma step_later : forall e s s', live s -> step e s = Ok tt s' -> still later s s'.
Proof.
  intros e s s' V H. pose proof (live_wf _ V) as W. destruct (opens e) eqn:O; [eapply opens_still; eauto; exact _|].
  destruct (match e with E_Time _ _ => true | _ => false end) eqn:T.
  - destruct e; try discriminate T. cbn [step] in H. apply modify_ok in H. subst. intros i c c' H1 H2. cbn in H2. rewrite H1 in H2. inversion H2. unfold later. lia.
  - apply byR_still. assert (K : rel (also wf (byR later s)) (step e)).
    { intros a b s1 E. assert (F : forall m : M unit, m = step e -> rel (also wf (byR later s)) m); [|exact (F _ eq_refl _ _ _ E)].
      intros m ->. destruct e; try discriminate O; try discriminate T; cbn [step]; unfold is_open; first [rel_auto | solve [rel_go]]. }
    apply (K _ _ _ H W). apply refl_by. exact _.
Qed.

Lemma blocked_buffer : forall i s n s' cn, assoc i (s_conns s) = Some cn -> (s_now s < co_delaytime cn)%Z -> Handle_Buffer i s = Ok n s' -> s' = s /\ n = 0%Z.
Proof.
  intros i s n s' cn Hc D H. unfold Handle_Buffer in H. bd H as o s1 H1. unfold Conn_GetClient in H1. bd H1 as c0 s2 H2. apply con_ok in H2. destruct H2 as [-> _]. rdret H1.
  bd H as h s1 H1. apply nonnull_ok in H1. destruct H1 as [Eh ->]. bd H as m s1 H1. apply max_commands_ok in H1. destruct H1 as (-> & c & _ & _ & M1).
  bd H as r s1 H1. destruct m as [|m]; [lia|]. cbn [handle_lines] in H1. bd H1 as c1 s2 H2. apply con_ok in H2. destruct H2 as [-> [Hc1|[Hc1 _]]]; [|congruence]. rewrite Hc in Hc1. inversion Hc1; subst c1.
  bd H1 as t s2 H2. unfold now in H2. rdgets H2. apply Z.ltb_lt in D. rewrite D in H1. apply ret_ok in H1. destruct H1 as [-> ->]. apply ret_ok in H. tauto.
Qed.
Lemma blocked_data : forall i d s s' cn, assoc i (s_conns s) = Some cn -> (s_now s < co_delaytime cn)%Z -> step (E_Data i d) s = Ok tt s' -> s' = s.
Proof.
  intros i d s s' cn Hc D H. cbn [step] in H. bd H as c1 s2 H2. apply con_ok in H2. destruct H2 as [-> [Hc1|[Hc1 _]]]; [|congruence]. rewrite Hc in Hc1. inversion Hc1; subst c1.
  bd H as t s2 H2. unfold now in H2. rdgets H2. unfold can_read in H. replace (co_delaytime cn <=? s_now s)%Z with false in H by (symmetry; apply Z.leb_gt; lia).
  rewrite andb_false_r in H. cbn [andb whenM] in H. rdret H. reflexivity.
Qed.
Lemma blocked_lines : forall i e s s' cn, live s -> assoc i (s_conns s) = Some cn -> (s_now s < co_delaytime cn)%Z -> step e s = Ok tt s' -> exists ok, executed i e [] ok s s'.
Proof.
  intros i e s s' cn V Hc D H. destruct (step_fed i e s s' (live_wf _ V) H) as (ls & ok & X & Y & _). assert (ls = []); [|subst; eauto]. apply Y. intros c' Hc'. rewrite Hc in Hc'. inversion Hc'; subst. exact D.
Qed.
Lemma penalty_set : forall i secs s s' cn, assoc i (s_conns s) = Some cn -> Conn_SetPenalty i secs s = Ok tt s' ->
  exists cn', assoc i (s_conns s') = Some cn' /\
  co_delaytime cn' = (Z.max (co_delaytime cn) (s_now s) + (if (secs <? 10) && (0 <=? cf_maxpenalty (s_conf s)) then Z.min secs (cf_maxpenalty (s_conf s)) else secs))%Z.
Proof.
  intros i secs s s' cn Hc H. unfold Conn_SetPenalty in H. bd H as m s1 H1. unfold cf in H1. rdgets H1. bd H as t s1 H1. unfold now in H1. rdgets H1. apply upd_con_ok in H. subst s'.
  cbn [s_conns set_s_conns]. rewrite assoc_aupd, Nat.eqb_refl, Hc. cbn [option_map]. eexists. split; [reflexivity|]. cbn [co_delaytime set_co_delaytime]. unfold penalty. cbv zeta. f_equal.
  destruct (Z.ltb_spec secs 10), (Z.leb_spec 0 (cf_maxpenalty (s_conf s))), (Z.ltb_spec (cf_maxpenalty (s_conf s)) secs); cbn [andb]; lia.
Qed.

(** ---- the limits ---- *)
Lemma limit_line : forall s i n, limit_of i s n -> (exists h c, client_of s i h c /\ cl_type c = T_SERVER) \/ line_limit s i n.
Proof.
  intros s i n (cn & h & c & H1 & H2 & H3 & H4 & _). assert (K : client_of s i h c). { split; [exists cn; rewrite lookup_assoc; auto|rewrite lookup_assoc; auto]. }
  destruct (ctype_eqb (cl_type c) T_SERVER) eqn:E. { apply ctype_eqb_eq in E. eauto. }
  right. exists h, c. split; auto. split; [intro X; rewrite X in E; discriminate|]. assert (N : cl_type c <> T_SERVER) by (intro X; rewrite X in E; discriminate). specialize (H4 N).
  destruct (ctype_eqb (cl_type c) T_SERVICE) eqn:ES.
  - apply ctype_eqb_eq in ES. left. auto.
  - assert (NS : cl_type c <> T_SERVICE) by (intro X; rewrite X in ES; discriminate). cbn [orb] in H4. destruct (ctype_eqb (cl_type c) T_USER) eqn:EU; cbn [andb] in H4.
    + apply ctype_eqb_eq in EU. destruct (memb "F" (cl_modes c)) eqn:F; [left|right]; split; auto; [right; split; auto; apply memb_In; auto|].
      split; auto. intros [_ X]. apply memb_In in X. congruence.
    + right. split; auto. split; auto. intros [X _]. rewrite X in EU. discriminate.
Qed.
Lemma pass_spec : forall i inp m s s', pass i inp m s s' -> exists ls ok, traced i ls ok s s' /\ List.length ls <= m /\ Forall legal_line ls /\
  (m <> 0 -> forall l, waiting i inp l s -> exists q, ls = l :: q).
Proof.
  intros i inp m s s' (ls & ok & F & L & G & X). exists ls, ok. split; [apply F|]. split; auto. split; auto. eapply Forall_impl; [|exact G]. intros l (A & B0 & C). split; auto. split; auto. lia.
Qed.
Lemma one_pass : forall i s n s', live s -> Handle_Buffer i s = Ok n s' ->
  exists m ls ok, traced i ls ok s s' /\ List.length ls <= m /\ Forall legal_line ls /\ (forall l, waiting i [] l s -> exists q, ls = l :: q) /\
  ((exists h c, client_of s i h c /\ cl_type c = T_SERVER) \/ line_limit s i m).
Proof.
  intros i s n s' V H. destruct (Handle_Buffer_pass _ _ _ _ H (live_wf _ V)) as (m & L & P). apply pass_spec in P. destruct P as (ls & ok & T & Len & G & X).
  exists m, ls, ok. split; auto. split; auto. split; auto. split; [|apply limit_line; auto]. apply X. destruct L as (? & ? & ? & _ & _ & _ & _ & L). lia.
Qed.
Lemma one_read : forall i data s s' cn, live s -> assoc i (s_conns s) = Some cn -> can_read (s_now s) cn = true -> List.length data <= READBUFFER_LEN -> data <> [] -> step (E_Data i data) s = Ok tt s' ->
  exists m ls ok, traced i ls ok s s' /\ List.length ls <= m /\ Forall legal_line ls /\ (forall l, waiting i data l s -> exists q, ls = l :: q) /\
  ((exists h c, client_of s i h c /\ cl_type c = T_SERVER) \/ line_limit s i m).
Proof.
  intros i data s s' cn V Hc CR Len ND H. pose proof (live_wf _ V) as W. cbn [step] in H. bd H as c1 s2 H2. apply con_ok in H2. destruct H2 as [-> [Hc1|[Hc1 _]]]; [|congruence]. rewrite Hc in Hc1. inversion Hc1; subst c1.
  bd H as t s2 H2. unfold now in H2. rdgets H2. rewrite CR in H. replace (List.length data <=? READBUFFER_LEN) with true in H by (symmetry; apply Nat.leb_le; auto). cbn [andb whenM] in H.
  unfold can_read in CR. rewrite !andb_true_iff in CR. destruct CR as [[[Co _] _] Cl]. apply Nat.ltb_lt in Cl.
  destruct (Read_Data_pass2 _ _ _ _ _ H W Hc) as (m & L & P); [unfold COMMAND_LEN, READBUFFER_LEN in *; lia|auto|]. apply pass_spec in P. destruct P as (ls & ok & T & Ln & G & X).
  exists m, ls, ok. split; auto. split; auto. split; auto. split; [|apply limit_line; auto]. apply X. destruct L as (? & ? & ? & _ & _ & _ & _ & L). lia.
Qed.

(** ---- timeouts ---- *)
Lemma closed_conns : forall i log fwd inform s s', Conn_Close i log fwd inform s = Ok tt s' -> wf2 s -> assoc i (s_conns s') = None /\
  forall j c, j <> i -> assoc j (s_conns s) = Some c -> exists c', assoc j (s_conns s') = Some c' /\ co_same c c'.
Proof.
  intros i log fwd inform s s' H [W [CO _]]. apply Conn_Close_ok in H; auto. destruct H as (c & Hc & [[Cl _]|(_ & _ & _ & D & sv & G & _)]). { destruct (CO _ _ Hc). congruence. }
  pose proof (g_con _ _ _ _ _ G) as K. unfold dropc in K. cbn [s_conns set_s_servers set_s_numconn set_s_conns] in K. split.
  - specialize (K i). rewrite assoc_adel, Nat.eqb_refl in K. destruct (assoc i (s_conns s')); [contradiction|reflexivity].
  - intros j c0 N H0. specialize (K j). rewrite assoc_adel in K. destruct (Nat.eqb_spec j i); [contradiction|]. rewrite H0 in K. destruct (assoc j (s_conns s')) as [c'|]; [|contradiction]. eauto.
Qed.
Lemma is_registered_iff : forall t, is_registered t = true <-> registered t.
Proof. intros []; cbn; unfold registered; split; intro H; auto; try discriminate; destruct H as [H|[H|H]]; discriminate. Qed.
Lemma fmt_ping : forall x, fmt (B "PING :%s") [FS x] = B "PING :" ++ x.
Proof. intro x. cbn. rewrite app_nil_r. reflexivity. Qed.
Lemma ping_spec : forall i s s' cn b, assoc i (s_conns s) = Some cn -> co_open cn = true -> Conn_WriteStr i "PING :%s" [aID This_Server] s = Ok b s' ->
  exists me name cn', assoc This_Server (s_heap s) = Some me /\ (name = cl_id me \/ (cl_id me = [] /\ name = B "*")) /\
  s_out s' = (i, wire (B "PING :" ++ name)) :: s_out s /\ assoc i (s_conns s') = Some cn' /\ co_lastping cn' = co_lastping cn /\ co_lastdata cn' = co_lastdata cn.
Proof.
  intros i s s' cn b Hc Op H. unfold Conn_WriteStr in H. bd H as l s1 H1. cbn [mseq] in H1. bd H1 as x s2 H2. unfold aID in H2. bd H2 as id s3 H3. unfold Client_ID in H3.
  bd H3 as me s4 H4. apply cli_ok in H4. destruct H4 as [Hm ->]. bd H3 as mx s4 H4. unfold cf in H4. rdgets H4. bd H3 as u s4 H4. apply assertM_ok in H4. destruct H4 as [_ ->]. apply ret_ok in H3. destruct H3 as [-> ->]. rdret H2.
  bd H1 as r s2 H2. rdret H2. rdret H1. bd H as c1 s2 H2. apply con_ok in H2. destruct H2 as [-> [Hc1|[Hc1 _]]]; [|congruence]. rewrite Hc in Hc1. inversion Hc1; subst c1. clear Hc1.
  rewrite Op in H. bd H as ok s2 H2. bd H2 as u1 s3 H3. assert (s3 = s). { destruct (co_client cn); [bd H3 as c2 s4 H4; apply cli_ok in H4; destruct H4 as [_ ->]; rdret H3; reflexivity|rdret H3; reflexivity]. } subst s3. clear H3.
  bd H2 as u2 s3 H3. apply ret_ok in H2. destruct H2 as [-> ->]. unfold emit in H3. bd H3 as u3 s4 H4. apply modify_ok in H4. subst s4. apply upd_con_ok in H3. subst s3.
  bd H as u4 s4 H4. apply upd_con_ok in H4. subst s4. apply ret_ok in H. destruct H as [_ ->]. rewrite fmt_ping.
  exists me, (match cl_id me with [] => B "*" | _ => cl_id me end). cbn [s_conns s_out set_s_conns set_s_out set_s_wcounter]. rewrite !assoc_aupd, Nat.eqb_refl, Hc. cbn [option_map].
  eexists. split; auto. split; [destruct (cl_id me); auto|]. split; [reflexivity|]. split; [reflexivity|]. split; reflexivity.
Qed.
Lemma check_spec : forall i s s' cn h c, live s -> client_of s i h c -> lookup i (s_conns s) = Some cn -> Check_Connection i s = Ok tt s' ->
  let t := s_now s in
  (registered (cl_type c) -> (co_lastdata cn < co_lastping cn)%Z -> (co_lastping cn < t - cf_pongtimeout (s_conf s))%Z -> lookup i (s_conns s') = None) /\
  (registered (cl_type c) -> (co_lastdata cn < co_lastping cn)%Z -> (t - cf_pongtimeout (s_conf s) <= co_lastping cn)%Z -> s' = s) /\
  (registered (cl_type c) -> (co_lastping cn <= co_lastdata cn)%Z -> (co_lastdata cn < t - cf_pingtimeout (s_conf s))%Z ->
     exists me name cn', lookup This_Server (s_heap s) = Some me /\ (name = cl_id me \/ (cl_id me = [] /\ name = B "*")) /\
       s_out s' = (i, wire (B "PING :" ++ name)) :: s_out s /\ lookup i (s_conns s') = Some cn' /\ co_lastping cn' = t /\ co_lastdata cn' = co_lastdata cn) /\
  (registered (cl_type c) -> (co_lastping cn <= co_lastdata cn)%Z -> (t - cf_pingtimeout (s_conf s) <= co_lastdata cn)%Z -> s' = s) /\
  (~ registered (cl_type c) -> (co_lastdata cn < t - cf_pongtimeout (s_conf s))%Z -> lookup i (s_conns s') = None) /\
  (~ registered (cl_type c) -> (t - cf_pongtimeout (s_conf s) <= co_lastdata cn)%Z -> s' = s).
Proof.
  intros i s s' cn h c V [(cn0 & L1 & L2) L3] Hc H. rewrite !lookup_assoc in *. rewrite Hc in L1. inversion L1; subst cn0. clear L1. cbv zeta.
  pose proof (live_wf2 _ V) as W. destruct W as [W [CO NC]]. pose proof (conj W (conj CO NC) : wf2 s) as W2. destruct (CO _ _ Hc) as [Op Cg].
  unfold Check_Connection in H. bd H as c1 s2 H2. apply con_ok in H2. destruct H2 as [-> [Hc1|[Hc1 _]]]; [|congruence]. rewrite Hc in Hc1. inversion Hc1; subst c1. clear Hc1.
  rewrite Op in H. cbn [negb] in H. bd H as t s2 H2. unfold now in H2. rdgets H2. bd H as ping s2 H2. unfold cf in H2. rdgets H2. bd H as pong s2 H2. unfold cf in H2. rdgets H2.
  bd H as o s2 H2. unfold Conn_GetClient in H2. bd H2 as c1 s3 H3. apply con_ok in H3. destruct H3 as [-> [Hc1|[Hc1 _]]]; [|congruence]. rewrite Hc in Hc1. inversion Hc1; subst c1. clear Hc1. rdret H2.
  rewrite L2 in H. bd H as reg s2 H2. bd H2 as ty s3 H3. apply Client_Type_ok in H3. destruct H3 as (-> & c1 & Hc1 & ->). rewrite L3 in Hc1. inversion Hc1; subst c1. clear Hc1. rdret H2.
  destruct (is_registered (cl_type c)) eqn:ER.
  - assert (R : registered (cl_type c)) by (apply is_registered_iff; auto).
    destruct (Z.ltb_spec (co_lastdata cn) (co_lastping cn)).
    + destruct (Z.ltb_spec (co_lastping cn) (s_now s - cf_pongtimeout (s_conf s))); cbn [whenM] in H.
      * apply closed_conns in H; auto. destruct H as [H _]. repeat split; intros; auto; try lia; contradiction.
      * rdret H. repeat split; intros; auto; try lia; contradiction.
    + destruct (Z.ltb_spec (co_lastdata cn) (s_now s - cf_pingtimeout (s_conf s))); cbn [whenM] in H.
      * repeat split; intros; try lia; try contradiction.
        bd H as u s2 HU. unfold Conn_UpdatePing in HU. apply upd_con_ok in HU. unfold void in H. bd H as b s3 HP. apply ret_ok in H. destruct H as [_ ->].
        assert (Hc2 : assoc i (s_conns s2) = Some (set_co_lastping (s_now s) cn)). { subst s2. cbn [s_conns set_s_conns]. rewrite assoc_aupd, Nat.eqb_refl, Hc. reflexivity. }
        destruct (ping_spec _ _ _ _ _ Hc2 Op HP) as (me & name & cn' & A1 & A2 & A3 & A4 & A5 & A6). exists me, name, cn'. subst s2. rewrite ?lookup_assoc. exact (conj A1 (conj A2 (conj A3 (conj A4 (conj A5 A6))))).  
      * rdret H. repeat split; intros; auto; try lia; contradiction.
  - assert (R : ~ registered (cl_type c)) by (intro X; apply is_registered_iff in X; congruence).
    destruct (Z.ltb_spec (co_lastdata cn) (s_now s - cf_pongtimeout (s_conf s))); cbn [whenM] in H.
    + apply closed_conns in H; auto. destruct H as [H _]. repeat split; intros; auto; try lia; contradiction.
    + rdret H. repeat split; intros; auto; try lia; contradiction.
Qed.
(** the check of one connection leaves the others connected *)
Lemma wr_con_keep : forall s s', wr s s' -> forall i c, assoc i (s_conns s) = Some c -> exists c', assoc i (s_conns s') = Some c' /\ co_same c c'.
Proof. intros s s' H i c Hc. destruct (wr_tabs _ _ H) as [_ K]. specialize (K i). rewrite Hc in K. destruct (assoc i (s_conns s')) as [c'|]; [|contradiction]. eauto. Qed.
Lemma check_others : forall i j s s' cn, live s -> i <> j -> assoc i (s_conns s) = Some cn -> Check_Connection j s = Ok tt s' ->
  exists cn', assoc i (s_conns s') = Some cn' /\ co_lastping cn' = co_lastping cn /\ co_lastdata cn' = co_lastdata cn.
Proof.
  intros i j s s' cn V N Hc H. pose proof (live_wf2 _ V) as W2.
  set (P := fun a b : state => forall c, assoc i (s_conns a) = Some c -> exists c', assoc i (s_conns b) = Some c' /\ co_lastping c' = co_lastping c /\ co_lastdata c' = co_lastdata c).
  assert (P s s'); [|auto].
  assert (rf : P s s) by (intros c Hx; exists c; auto).
  unfold Check_Connection in H. bd H as c1 s2 H2. apply con_ok in H2. destruct H2 as [-> Hj].
  destruct (negb (co_open c1)); [rdret H; exact rf|]. bd H as t s2 H2. unfold now in H2. rdgets H2. bd H as ping s2 H2. unfold cf in H2. rdgets H2. bd H as pong s2 H2. unfold cf in H2. rdgets H2.
  bd H as o s2 H2. assert (s2 = s) by (same H2; reflexivity). subst s2. bd H as reg s2 H3. assert (s2 = s). { destruct o; same H3; reflexivity. } subst s2.
  assert (cl : forall log fwd inform, Conn_Close j log fwd inform s = Ok tt s' -> P s s').
  { intros log fwd inform HC c Hx. apply closed_conns in HC; auto. destruct HC as [_ HC]. destruct (HC _ _ N Hx) as (c' & A & B0). exists c'. split; auto. unfold co_same in B0. tauto. }
  destruct reg.
  - destruct (co_lastdata c1 <? co_lastping c1)%Z.
    + match type of H with whenM ?b _ _ = _ => destruct b end; cbn [whenM] in H; [eauto|rdret H; exact rf].
    + match type of H with whenM ?b _ _ = _ => destruct b end; cbn [whenM] in H; [|rdret H; exact rf].
      bd H as u s2 H4. unfold Conn_UpdatePing in H4. apply upd_con_ok in H4. unfold void in H. bd H as b s3 H5. apply ret_ok in H. destruct H as [_ ->].
      assert (Wr : wr s2 s3). { eapply rel_use; [|exact H5]. rel_auto. }
      intros c Hx. assert (H2' : assoc i (s_conns s2) = Some c). { subst s2. cbn [s_conns set_s_conns]. rewrite assoc_aupd. destruct (Nat.eqb_spec j i); [congruence|exact Hx]. }
      destruct (wr_con_keep _ _ Wr _ _ H2') as (c' & A & B0). exists c'. split; auto. unfold co_same in B0. tauto.
  - match type of H with whenM ?b _ _ = _ => destruct b end; cbn [whenM] in H; [eauto|rdret H; exact rf].
Qed.
(** ---- the stream ---- *)
Lemma stream_lines : forall i inp s s' cn, reachable s -> serving i inp s s' -> assoc i (s_conns s) = Some cn ->
  exists ls ok cn', dialogue i inp ls ok s s' /\ assoc i (s_conns s') = Some cn' /\
  (ok = true -> ~ In NUL (co_rbuf cn ++ inp) -> lines_of (co_rbuf cn ++ inp) = ls ++ lines_of (co_rbuf cn')).
Proof.
  intros i inp s s' cn R S H. destruct (session_lines i inp s s' (live_wf _ (V_reach _ R)) S _ H) as (ls & ok & D & _ & cn' & Hc & K).
  exists ls, ok, cn'. split; auto. split; auto. intros E N. apply K; auto.
Qed.
Lemma stream_segments : forall i inp s1 s1' s2 s2' c1 c2, reachable s1 -> reachable s2 -> serving i inp s1 s1' -> serving i inp s2 s2' ->
  assoc i (s_conns s1) = Some c1 -> assoc i (s_conns s2) = Some c2 -> co_rbuf c1 = co_rbuf c2 -> ~ In NUL (co_rbuf c1 ++ inp) ->
  exists ls1 ok1 ls2 ok2, dialogue i inp ls1 ok1 s1 s1' /\ dialogue i inp ls2 ok2 s2 s2' /\
  (ok1 = true -> ok2 = true ->
   (forall c, assoc i (s_conns s1') = Some c -> lines_of (co_rbuf c) = []) -> (forall c, assoc i (s_conns s2') = Some c -> lines_of (co_rbuf c) = []) -> ls1 = ls2).
Proof.
  intros i inp s1 s1' s2 s2' c1 c2 R1 R2 S1 S2 H1 H2 E N.
  destruct (stream_lines _ _ _ _ _ R1 S1 H1) as (l1 & o1 & d1 & D1 & G1 & K1). destruct (stream_lines _ _ _ _ _ R2 S2 H2) as (l2 & o2 & d2 & D2 & G2 & K2).
  exists l1, o1, l2, o2. split; auto. split; auto. intros O1 O2 X1 X2. specialize (K1 O1 N). rewrite E in *. specialize (K2 O2 N). rewrite (X1 _ G1) in K1. rewrite (X2 _ G2) in K2. rewrite app_nil_r in *. congruence.
Qed.
Lemma first_line : forall i s n s' l, live s -> Handle_Buffer i s = Ok n s' -> waiting i [] l s -> exists q ok, traced i (l :: q) ok s s'.
Proof. intros i s n s' l V H Wt. destruct (one_pass _ _ _ _ V H) as (m & ls & ok & T & _ & _ & X & _). destruct (X _ Wt) as [q ->]. eauto. Qed.
Lemma first_read : forall i data s s' cn l, live s -> assoc i (s_conns s) = Some cn -> can_read (s_now s) cn = true -> List.length data <= READBUFFER_LEN -> data <> [] ->
  step (E_Data i data) s = Ok tt s' -> waiting i data l s -> exists q ok, traced i (l :: q) ok s s'.
Proof. intros i data s s' cn l V H CR Len ND St Wt. destruct (one_read _ _ _ _ _ V H CR Len ND St) as (m & ls & ok & T & _ & _ & X & _). destruct (X _ Wt) as [q ->]. eauto. Qed.
(** a check whether a sequence of events keeps connection [i] connected, and what it reads *)
Fixpoint serve (i : connid) (es : list event) (s : state) : option (bytes * state) :=
  match es with
  | [] => Some ([], s)
  | e :: r => match step e s with
              | Ok _ s1 => match assoc i (s_conns s1) with
                           | Some _ => match serve i r s1 with Some (b, s') => Some (received i e s ++ b, s') | None => None end
                           | None => None
                           end
              | Bad _ => None
              end
  end.
Lemma serving_trans : forall i a s s1, serving i a s s1 -> forall b s', serving i b s1 s' -> serving i (a ++ b) s s'.
Proof. intros i a s s1 H1 b s' H2. induction H2; [rewrite app_nil_r; auto|]. rewrite app_assoc. econstructor; eauto. Qed.
Lemma serve_ok : forall i es s b s', serve i es s = Some (b, s') -> serving i b s s'.
Proof.
  induction es as [|e es IH]; intros s b s' H; cbn [serve] in H. { inversion H; subst. constructor. }
  destruct (step e s) as [u s1|] eqn:E; [|discriminate]. destruct (assoc i (s_conns s1)) eqn:EA; [|discriminate]. destruct (serve i es s1) as [[b1 s2]|] eqn:ES; [|discriminate].
  inversion H; subst. apply IH in ES. eapply serving_trans; [|exact ES]. change (received i e s) with ([] ++ received i e s). destruct u. eapply Serving_event; [constructor|exact E|congruence].
Qed.
Definition served (i : connid) (es : list event) (s : state) (f : bytes -> state -> bool) : bool := match serve i es s with Some (b, s') => f b s' | None => false end.
Lemma served_ok : forall i es s f, served i es s f = true -> exists b s', serving i b s s' /\ f b s' = true.
Proof. intros i es s f H. unfold served in H. destruct (serve i es s) as [[b s']|] eqn:E; [|discriminate]. exists b, s'. split; auto. eapply serve_ok; eauto. Qed.
Lemma delay_grows : forall e i s s' cn cn', live s -> step e s = Ok tt s' -> assoc i (s_conns s) = Some cn -> assoc i (s_conns s') = Some cn' ->
  (co_delaytime cn <= co_delaytime cn')%Z.
Proof. intros e i s s' cn cn' V H H1 H2. exact (step_later _ _ _ V H _ _ _ H1 H2). Qed.
Lemma mfor_split : forall A (f : A -> M unit) l1 x l2 s s', mfor (l1 ++ x :: l2) f s = Ok tt s' -> exists s1 s2, mfor l1 f s = Ok tt s1 /\ f x s1 = Ok tt s2.
Proof.
  induction l1 as [|a l1 IH]; intros x l2 s s' H; cbn [app mfor] in H.
  - bd H as u s2 H2. destruct u. exists s, s2. split; auto.
  - bd H as u s2 H2. destruct u. destruct (IH _ _ _ _ H) as (s3 & s4 & A1 & A2). exists s3, s4. split; auto. cbn [mfor]. unfold bind. rewrite H2. exact A1.
Qed.
Lemma loop_checks : forall s s' i cn, Main_Loop s = Ok tt s' -> assoc i (s_conns s) = Some cn ->
  exists s1 s2 l1 l2, map fst (s_conns s) = l1 ++ i :: l2 /\ mfor l1 Check_Connection s = Ok tt s1 /\ Check_Connection i s1 = Ok tt s2.
Proof.
  intros s s' i cn H Hc. unfold Main_Loop in H. bd H as u s1 H1. destruct u. unfold Check_Connections in H1. bd H1 as l s2 H2. rdgets H2.
  assert (K : In i (map fst (s_conns s))) by (eapply assoc_key; eauto). apply in_split in K. destruct K as (l1 & l2 & E). rewrite E in H1. destruct (mfor_split _ _ _ _ _ _ _ H1) as (s3 & s4 & A1 & A2).
  exists s3, s4, l1, l2. auto.
Qed.
