(** What exactly is written: the functions of irc-write.c put these lines, and no others, on the wire. *)
From Coq Require Import List Ascii String ZArith NArith Bool Lia Arith.
From Coq Require Import Relations RelationClasses.
From Verif Require Import Bytes Strl Match Lists ListsProofs Hash ParseReq State Messages Monad Core Write Info Chan Mode Msg Login Oper Server Dispatch Conn.
From Verif Require Import Rel RelWrite RelInfo RelBase RelChan RelSrv RelInit RelKey RelCmd RelComp WF RelGone Frame Tree Inv2 Inv4 Live Spec Observ Unch HandOper HandPrefix HandLine Frames Attrib HandGain HandUser HandChan HandJoin.
Import ListNotations.
Local Open Scope m_scope.

(** ---- [view]: only output, counters, marks and penalties differ ---- *)
Definition ends (l : list (connid * conn)) : list (connid * (bool * option handle)) := map (fun p => (fst p, (co_open (snd p), co_client (snd p)))) l.
Record view (s s' : state) : Prop := mk_view {
  v_conf : s_conf s' = s_conf s; v_now : s_now s' = s_now s; v_heap : s_heap s' = s_heap s; v_clients : s_clients s' = s_clients s;
  v_chans : s_chans s' = s_chans s; v_members : s_members s' = s_members s; v_ends : ends (s_conns s') = ends (s_conns s) }.
#[export] Instance view_po : PreOrder view.
Proof. split; [intro; split; reflexivity|]. intros a b c [] []. split; congruence. Qed.
Lemma ends_aupd : forall i f l, (forall c, co_open (f c) = co_open c /\ co_client (f c) = co_client c) -> ends (aupd i f l) = ends l.
Proof. intros i f l K. unfold ends, aupd. rewrite map_map. apply map_ext. intros [j c]. destruct (Nat.eqb _ _); cbn; auto. destruct (K c) as [-> ->]. reflexivity. Qed.
Lemma view_con : forall i f s, (forall c, co_open (f c) = co_open c /\ co_client (f c) = co_client c) -> view s (set_con i f s).
Proof. intros i f s K. unfold set_con. split; try reflexivity. apply ends_aupd. exact K. Qed.
Lemma ends_assoc : forall l l' i c, ends l' = ends l -> assoc i l = Some c -> exists c', assoc i l' = Some c' /\ co_open c' = co_open c /\ co_client c' = co_client c.
Proof.
  induction l as [|[j d] l IH]; intros [|[j' d'] l'] i c E A; cbn [ends map fst snd] in E; try discriminate E; try discriminate A. injection E as E1 E2 E3 E4. subst j'. cbn [assoc] in *. destruct (Nat.eqb _ _).
  - injection A as <-. exists d'. auto.
  - eapply IH; eauto.
Qed.
Lemma view_assoc : forall s s' i c, view s s' -> assoc i (s_conns s) = Some c -> exists c', assoc i (s_conns s') = Some c' /\ co_open c' = co_open c /\ co_client c' = co_client c.
Proof. intros s s' i c V A. apply (ends_assoc (s_conns s)); [apply V|exact A]. Qed.
Definition flag_of (s : state) (i : connid) : nat := match assoc i (s_conns s) with Some c => co_flag c | None => 0 end.
Lemma flag_con : forall i f s j, (forall c, co_flag (f c) = co_flag c) -> flag_of (set_con i f s) j = flag_of s j.
Proof. intros i f s j K. unfold flag_of, set_con. cbn. rewrite assoc_aupd. destruct (Nat.eqb _ _); auto. destruct (assoc _ _); cbn; auto. Qed.

(** ---- the arguments ---- *)
Lemma aS_ok : forall x s v s', aS x s = Ok v s' -> s' = s /\ v = FS x.
Proof. intros x s v s' H. apply ret_ok in H. destruct H as [-> ->]. auto. Qed.
Lemma Client_ID_ok : forall h s v s', Client_ID h s = Ok v s' -> s' = s /\ exists c, assoc h (s_heap s) = Some c /\ v = id_of c.
Proof.
  intros h s v s' H. unfold Client_ID in H. bd H as c s1 H1. apply cli_ok in H1. destruct H1 as [H1 ->]. bd H as m s1 H2. unfold cf in H2. rdgets H2. bd H as u s1 H3. apply assertM_ok in H3. destruct H3 as [_ ->]. apply ret_ok in H. destruct H as [-> ->]. split; auto. exists c. auto.
Qed.
Lemma aID_ok : forall h s v s', aID h s = Ok v s' -> s' = s /\ exists c, assoc h (s_heap s) = Some c /\ v = FS (id_of c).
Proof. intros h s v s' H. unfold aID in H. bd H as x s1 H1. apply Client_ID_ok in H1. destruct H1 as [-> (c & A & ->)]. apply ret_ok in H. destruct H as [-> ->]. eauto. Qed.
Lemma aChan_ok : forall ch s v s', aChan ch s = Ok v s' -> s' = s /\ exists k, assoc ch (s_chans s) = Some k /\ v = FS (ch_name k).
Proof.
  intros h s v s' H. unfold aChan, Channel_Name in H. bd H as x s1 H1. bd H1 as k s2 H2. apply chan_ok in H2. destruct H2 as [H2 ->]. apply ret_ok in H1. destruct H1 as [-> ->]. apply ret_ok in H. destruct H as [-> ->]. eauto.
Qed.
Lemma mseq_nil_ok : forall {A} (s : state) (v : list A) s', mseq [] s = Ok v s' -> s' = s /\ v = [].
Proof. intros A s v s' H. apply ret_ok in H. destruct H as [-> ->]. auto. Qed.
Lemma mseq_cons_ok : forall {A} (m : M A) l s v s', mseq (m :: l) s = Ok v s' -> exists a s1 t, m s = Ok a s1 /\ mseq l s1 = Ok t s' /\ v = a :: t.
Proof. intros A m l s v s' H. cbn [mseq] in H. bd H as a s1 H1. bd H as t s2 H2. apply ret_ok in H. destruct H as [-> ->]. eauto 8. Qed.
Lemma vsn_ok : forall n f l s v s', vsn n f l s = Ok v s' -> exists vals, mseq l s = Ok vals s' /\ v = firstn (n - 1) (cut0 (fmt (B f) vals)).
Proof. intros n f l s v s' H. unfold vsn in H. bd H as vals s1 H1. apply ret_ok in H. destruct H as [-> ->]. eauto. Qed.

(** ---- Conn_WriteStr ---- *)
Lemma view_open : forall s s' i, view s s' -> is_open s' i = is_open s i.
Proof.
  intros s s' i V. unfold is_open. pose proof (v_ends _ _ V) as E. revert E. generalize (s_conns s'), (s_conns s). clear. intros l' l E.
  destruct (assoc i l) as [c|] eqn:A. { destruct (ends_assoc _ _ _ _ E A) as (c' & -> & E1 & _). exact E1. }
  destruct (assoc i l') as [c|] eqn:A'; auto. destruct (ends_assoc _ _ _ _ (eq_sym E) A') as (c' & E1 & _). congruence.
Qed.
(** one line, written to connection [i] if it is open *)
Record wrote1 (i : connid) (t : bytes) (b : bool) (s s' : state) : Prop := mk_wrote1 {
  w1_view : view s s';
  w1_flag : forall j, flag_of s' j = flag_of s j;
  w1_open : b = is_open s i;
  w1_out : s_out s' = (if b then [(i, wire t)] else []) ++ s_out s }.
Lemma Conn_WriteStr_ok : forall i f l s b s', Conn_WriteStr i f l s = Ok b s' -> exists vals s1, mseq l s = Ok vals s1 /\ wrote1 i (fmt (B f) vals) b s1 s'.
Proof.
  intros i f l s b s' H. unfold Conn_WriteStr in H. bd H as vals s1 H1. exists vals, s1. split; auto.
  bd H as c s2 H2. apply con_ok in H2. destruct H2 as [-> A]. bd H as ok s2 H3. bd H as u s3 H4. apply ret_ok in H. destruct H as [-> ->]. apply upd_con_ok in H4. subst s3.
  assert (Q : view s1 s2 /\ (forall j, flag_of s2 j = flag_of s1 j) /\ ok = co_open c /\ s_out s2 = (if co_open c then [(i, wire (fmt (B f) vals))] else []) ++ s_out s1).
  { destruct (co_open c).
    - bd H3 as u1 s3 H4. assert (s3 = s1). { destruct (co_client c); [bd H4 as x sx Hx; apply cli_ok in Hx; destruct Hx as [_ ->]|]; apply ret_ok in H4; tauto. } subst s3. clear H4.
      bd H3 as u2 s3 H4. apply ret_ok in H3. destruct H3 as [-> ->]. unfold emit in H4. bd H4 as u3 s4 H5. apply modify_ok in H5. subst s4. apply upd_con_ok in H4. subst s3.
      set (g := fun c0 : conn => set_co_bytes_out (co_bytes_out c0 + Z.of_nat (List.length (wire (fmt (B f) vals))))%Z c0). set (sx := set_s_out _ _).
      assert (V : view s1 sx) by (split; reflexivity). split; [transitivity sx; [exact V|apply (view_con i g); intro; split; reflexivity]|]. split; [|split; reflexivity].
      intro j. change (flag_of (set_con i g sx) j = flag_of s1 j). rewrite flag_con by reflexivity. reflexivity.
    - apply ret_ok in H3. destruct H3 as [-> ->]. split; [reflexivity|]. auto. }
  destruct Q as (Q1 & Q2 & -> & Q4). set (g := fun c0 : conn => set_co_msg_out (co_msg_out c0 + 1)%Z c0). split.
  - transitivity s2; [exact Q1|]. apply (view_con i g). intro; split; reflexivity.
  - intro j. rewrite <- Q2. apply (flag_con i g). reflexivity.
  - unfold is_open. destruct A as [-> |[-> ->]]; reflexivity.
  - exact Q4.
Qed.

(** a text that is cut at 999 bytes first is the same on the wire *)
Lemma cut0_app : forall a b, cut0 (a ++ b) = if memb NUL a then cut0 a else a ++ cut0 b.
Proof.
  induction a as [|x a IH]; intro b; [reflexivity|]. cbn [app cut0]. cbn [memb existsb]. rewrite (Ascii.eqb_sym NUL x). destruct (Ascii.eqb x NUL); cbn; auto. fold (memb NUL a). rewrite IH. destruct (memb NUL a); auto.
Qed.
Lemma cut0_clean : forall a, memb NUL (cut0 a) = false.
Proof. induction a as [|x a IH]; [reflexivity|]. cbn [cut0]. destruct (Ascii.eqb x NUL) eqn:E; [reflexivity|]. cbn [memb existsb]. rewrite Ascii.eqb_sym, E. exact IH. Qed.
Lemma cut0_id : forall a, memb NUL a = false -> cut0 a = a.
Proof. induction a as [|x a IH]; intro H; [reflexivity|]. cbn [memb existsb] in H. apply orb_false_iff in H. destruct H as [H1 H2]. cbn [cut0]. rewrite Ascii.eqb_sym, H1. f_equal. apply IH. exact H2. Qed.
Lemma memb_firstn : forall x n (a : bytes), memb x a = false -> memb x (firstn n a) = false.
Proof. induction n as [|n IH]; intros [|y a] H; cbn [firstn memb existsb] in *; auto. apply orb_false_iff in H. destruct H as [-> H]. cbn. apply IH. exact H. Qed.
Lemma wire_cut : forall a b, wire (a ++ firstn 999 (cut0 b)) = wire (a ++ b).
Proof.
  intros a b. unfold wire. rewrite !cut0_app. destruct (memb NUL a); [reflexivity|]. rewrite (cut0_id (firstn 999 (cut0 b))) by (apply memb_firstn; apply cut0_clean).
  f_equal. set (d := cut0 b). destruct (le_lt_dec (List.length d) 999) as [L|L]; [rewrite firstn_all2 by exact L; reflexivity|].
  assert (E1 : List.length (a ++ firstn 999 d) >= 511). { rewrite app_length, firstn_length. lia. } assert (E2 : List.length (a ++ d) >= 511) by (rewrite app_length; lia).
  rewrite (proj2 (Nat.leb_le 511 _)) by exact E1. rewrite (proj2 (Nat.leb_le 511 _)) by exact E2. f_equal. rewrite !firstn_app, firstn_firstn. do 2 f_equal. lia.
Qed.

(** ---- who relays to whom ---- *)
Lemma NextHop_next : forall s n h x s', NextHop n h s = Ok x s' -> next_hop s h x.
Proof.
  induction n as [|n IH]; intros h x s' H; [discriminate H|]. cbn [NextHop] in H. bd H as c s1 H1. apply cli_ok in H1. destruct H1 as [A ->].
  destruct (cl_introducer c) as [i|] eqn:I; [|apply ret_ok in H; destruct H as [-> _]; eapply NH_direct; [rewrite lookup_assoc; exact A|auto]].
  destruct (heq i h || heq i This_Server) eqn:E.
  - apply ret_ok in H. destruct H as [-> _]. eapply NH_direct; [rewrite lookup_assoc; exact A|]. apply orb_true_iff in E. unfold heq in E. rewrite !Nat.eqb_eq in E. destruct E as [-> | ->]; auto.
  - apply orb_false_iff in E. unfold heq in E. rewrite !Nat.eqb_neq in E. eapply NH_via; [rewrite lookup_assoc; exact A|exact I|tauto|tauto|]. eapply IH; eauto.
Qed.
Lemma Client_NextHop_next : forall s h x s', Client_NextHop h s = Ok x s' -> s' = s /\ next_hop s h x.
Proof. intros s h x s' H. unfold Client_NextHop in H. bd H as n s1 H1. rdgets H1. split; [eapply NextHop_ok; eauto|eapply NextHop_next; eauto]. Qed.
Lemma next_hop_fun : forall s h x, next_hop s h x -> forall y, next_hop s h y -> x = y.
Proof.
  induction 1 as [h c A D|h c i x A I N1 N2 H IH]; intros y K; inversion K; subst.
  - reflexivity.
  - rewrite A in H. injection H as <-. destruct D as [D|[D|D]]; rewrite D in H0; try discriminate; injection H0 as <-; congruence.
  - rewrite A in H0. injection H0 as <-. destruct H1 as [D|[D|D]]; rewrite D in I; try discriminate; injection I as <-; congruence.
  - rewrite A in H0. injection H0 as <-. rewrite I in H1. injection H1 as <-. apply IH. assumption.
Qed.
Lemma view_next : forall s s', s_heap s' = s_heap s -> forall h x, next_hop s h x -> next_hop s' h x.
Proof. intros s s' E h x H. induction H as [h c A D|h c i x A I N1 N2 H IH]; [eapply NH_direct|eapply NH_via]; rewrite ?E; eauto. Qed.

(** the prefix *)
Lemma Mask_settled : forall s h c m s', assoc h (s_heap s) = Some c -> settled c -> Client_MaskCloaked h s = Ok m s' -> s' = s /\ m = (if ctype_eqb (cl_type c) T_SERVER && negb (memb "x" (cl_modes c)) then cl_id c else mask_of c (shown_host s c)).
Proof.
  intros s h c m s' A S H. unfold Client_MaskCloaked in H. bd H as c1 s1 H1. apply cli_ok in H1. destruct H1 as [H1 ->]. rewrite A in H1. injection H1 as <-. unfold shown_host.
  destruct (memb "x" (cl_modes c)) eqn:X; cbn [negb] in H |- *.
  - bd H as d s1 H1. unfold Client_HostnameDisplayed in H1. bd H1 as c1 s2 H2. apply cli_ok in H2. destruct H2 as [H2 ->]. rewrite A in H2. injection H2 as <-. rewrite X in H1. cbn [negb] in H1.
    destruct (cl_cloaked c) as [t|] eqn:K; [|exfalso; apply S; auto; apply memb_In; exact X]. apply ret_ok in H1. destruct H1 as [-> ->]. bd H as c2 s2 H2. apply cli_ok in H2. destruct H2 as [H2 ->]. rewrite A in H2. injection H2 as <-. apply ret_ok in H. destruct H as [-> ->]. rewrite andb_false_r. auto.
  - unfold Client_Mask in H. bd H as c1 s1 H1. apply cli_ok in H1. destruct H1 as [H1 ->]. rewrite A in H1. injection H1 as <-. apply ret_ok in H. destruct H as [-> ->]. rewrite andb_true_r. auto.
Qed.
