(** What is told about a user to those who share a channel with it: NICK and QUIT (C28). *)
From Coq Require Import List Ascii String ZArith NArith Bool Lia Arith.
From Coq Require Import Relations RelationClasses.
From Verif Require Import Bytes Strl Match Lists ListsProofs Hash ParseReq State Messages Monad Core Write Info Chan Mode Msg Login Oper Server Dispatch Conn.
From Verif Require Import Rel RelWrite RelInfo RelBase RelChan RelSrv RelInit RelKey RelCmd RelComp WF RelGone Frame Tree Inv1 Inv2 Inv4 Live Spec Observ Unch HandOper HandPrefix HandLine Frames Attrib HandGain HandUser HandChan HandJoin HandKick Output HandDo HandSend SpecLink HandCast SpecNick.
Import ListNotations.
Local Open Scope m_scope.

(** Also while a client is being destroyed, and not in the list of clients anymore, the following holds; the lemmas
    up to [marks_local0] are those of HandDo, HandSend and HandCast with this premise. *)
Record tied (s : state) : Prop := mk_tied {
  td_me : exists c, assoc This_Server (s_heap s) = Some c /\ cl_type c = T_SERVER /\ cl_conn c = None /\ cl_introducer c = Some This_Server;
  td_h2c : forall h c i, assoc h (s_heap s) = Some c -> cl_conn c = Some i -> exists cn, assoc i (s_conns s) = Some cn /\ co_client cn = Some h;
  td_local : forall h c i, assoc h (s_heap s) = Some c -> cl_conn c = Some i -> cl_introducer c = Some This_Server \/ cl_introducer c = Some h }.
Lemma tree_tied : forall s, tree s -> tied s.
Proof. intros s []. split; auto. Qed.
Lemma view_tied : forall s s', view s s' -> tied s -> tied s'.
Proof.
  intros s s' V [T1 T4 T5]. pose proof (v_heap _ _ V) as EH. split; rewrite ?EH; auto.
  intros h c i A C. destruct (T4 _ _ _ A C) as (cn & K1 & K2). destruct (view_assoc _ _ _ _ V K1) as (cn' & K3 & _ & K4). exists cn'. split; auto. congruence.
Qed.
Lemma local_hop0 : forall s h c i x, tied s -> assoc h (s_heap s) = Some c -> cl_conn c = Some i -> next_hop s h x -> x = h.
Proof.
  intros s h c i x T A CI N. assert (D : next_hop s h h). { eapply NH_direct; [rewrite lookup_assoc; exact A|]. destruct (td_local _ T _ _ _ A CI); auto. } eapply next_hop_fun; eauto.
Qed.
Lemma conn_client0 : forall s x y c d j, tied s -> assoc x (s_heap s) = Some c -> assoc y (s_heap s) = Some d -> cl_conn c = Some j -> cl_conn d = Some j -> x = y /\ c = d.
Proof. intros s x y c d j T A A2 E1 E2. destruct (td_h2c _ T _ _ _ A E1) as (cn & K1 & K2). destruct (td_h2c _ T _ _ _ A2 E2) as (cn2 & K3 & K4). rewrite K1 in K3. injection K3 as <-. rewrite K2 in K4. injection K4 as ->. split; auto. congruence. Qed.
Lemma marks_fun0 : forall s from r m m' j c c', tied s -> marks s from r m j c -> marks s from r m' j c' -> c = c'.
Proof. intros s from r m m' j c c' T (cm & x & _ & _ & _ & _ & A & E) (cm' & x' & _ & _ & _ & _ & A' & E'). eapply conn_client0; eauto. Qed.
Lemma mark_one0 : forall from r m s u s', tied s ->
  (c <- cli m ;;
    if negb r && ((match cl_conn c with None => true | Some _ => false end) || ctype_eqb (cl_type c) T_SERVER) then ret tt
    else nh <- Client_NextHop m ;; if heq nh from then ret tt else o <- Client_Conn nh ;; i <- nonnull o ;; b <- is_type nh T_SERVER ;; Conn_SetFlag i (if b then SEND_TO_SERVER else SEND_TO_USER)) s = Ok u s' ->
  view s s' /\ s_out s' = s_out s /\
  ((forall j, flag_of s' j = flag_of s j) /\ (forall j c, ~ marks s from r m j c) \/ exists j c, marks s from r m j c /\ forall k, flag_of s' k = if Nat.eqb j k then srv_flag c else flag_of s k).
Proof.
  intros from r m s u s' T H. bd H as c s1 H1. apply cli_ok in H1. destruct H1 as [A ->]. destruct (negb r && _) eqn:R in H.
  { apply ret_ok in H. destruct H as [_ ->]. split; [reflexivity|]. split; auto. left. split; auto. intros j d (cm & x & A1 & [-> |[K1 K2]] & _); [discriminate R|]. rewrite A in A1. injection A1 as <-. apply andb_true_iff in R. destruct R as [_ R]. apply orb_true_iff in R. destruct R as [R|R]; [destruct (cl_conn c); congruence|apply ctype_eqb_eq in R; contradiction]. }
  assert (R' : r = true \/ (cl_conn c <> None /\ cl_type c <> T_SERVER)). { apply andb_false_iff in R. destruct R as [R|R]; [left; destruct r; auto; discriminate|right]. apply orb_false_iff in R. destruct R as [R1 R2]. split; [destruct (cl_conn c); [discriminate|discriminate R1]|]. intro E. rewrite E in R2. discriminate R2. }
  bd H as nh s1 H1. apply Client_NextHop_next in H1. destruct H1 as [-> N]. destruct (heq nh from) eqn:E in H.
  { apply ret_ok in H. destruct H as [_ ->]. split; [reflexivity|]. split; auto. left. split; auto. intros j d (cm & x & A1 & _ & N2 & NE & _). apply Nat.eqb_eq in E. rewrite (next_hop_fun _ _ _ N _ N2) in E. contradiction. }
  bd H as o s1 H1. unfold Client_Conn in H1. bd H1 as c1 s2 H2. apply cli_ok in H2. destruct H2 as [A1 ->]. apply ret_ok in H1. destruct H1 as [-> ->]. bd H as i s1 H1. apply nonnull_ok in H1. destruct H1 as [EC ->].
  bd H as b s1 H1. apply is_type_ok in H1. destruct H1 as (-> & c2 & A2 & ->). rewrite A1 in A2. injection A2 as <-. unfold Conn_SetFlag in H. apply upd_con_ok in H. subst s'.
  split; [apply (view_con i (set_co_flag _)); intro; split; reflexivity|]. split; [reflexivity|]. right. exists i, c1. split.
  { exists c, nh. repeat (split; auto). apply Nat.eqb_neq. exact E. }
  intro k. match goal with |- flag_of ?x _ = _ => change x with (set_con i (set_co_flag (srv_flag c1)) s) end. rewrite flag_set. destruct (td_h2c _ T _ _ _ A1 EC) as (cn & K1 & _). rewrite K1. reflexivity.
Qed.
Lemma mark_list0 : forall from r l s u s', tied s ->
  mfor l (fun m => c <- cli m ;;
    if negb r && ((match cl_conn c with None => true | Some _ => false end) || ctype_eqb (cl_type c) T_SERVER) then ret tt
    else nh <- Client_NextHop m ;; if heq nh from then ret tt else o <- Client_Conn nh ;; i <- nonnull o ;; b <- is_type nh T_SERVER ;; Conn_SetFlag i (if b then SEND_TO_SERVER else SEND_TO_USER)) s = Ok u s' ->
  view s s' /\ s_out s' = s_out s /\
  forall j, (flag_of s' j = flag_of s j /\ forall m c, In m l -> ~ marks s from r m j c) \/ exists m c, In m l /\ marks s from r m j c /\ flag_of s' j = srv_flag c.
Proof.
  induction l as [|m l IH]; intros s u s' T H; cbn [mfor] in H.
  - apply ret_ok in H. destruct H as [_ ->]. split; [reflexivity|]. split; [reflexivity|]. intro j. left. split; auto.
  - bd H as u1 s1 H1. destruct (mark_one0 _ _ _ _ _ _ T H1) as (V & O & F). destruct (IH _ _ _ (view_tied _ _ V T) H) as (V2 & O2 & F2). split; [etransitivity; eauto|]. split; [congruence|].
    intro j. destruct (F2 j) as [[F3 F4]|(m' & c & I & K & F3)].
    + destruct F as [[F5 F6]|(j0 & c & K & F5)].
      * left. split; [rewrite F3; apply F5|]. intros m' c [<- |I]; [apply F6|]. intro Q. apply (F4 m' c I). apply (view_marks _ _ _ _ _ _ _ V). exact Q.
      * destruct (Nat.eq_dec j0 j) as [-> |NE]; [right; exists m, c; split; [left; auto|]; split; auto; rewrite F3, F5, Nat.eqb_refl; reflexivity|].
        left. rewrite F3, F5. destruct (Nat.eqb_spec j0 j); [contradiction|]. split; auto. intros m' c' [<- |I] Q; [|apply (F4 m' c' I); apply (view_marks _ _ _ _ _ _ _ V); exact Q].
        destruct K as (cm & x & _ & _ & N1 & _ & A1 & E1). destruct Q as (cm' & x' & _ & _ & N2 & _ & A2 & E2). rewrite (next_hop_fun _ _ _ N1 _ N2) in A1. rewrite A1 in A2. injection A2 as <-. rewrite E1 in E2. injection E2 as ->. contradiction.
    + right. exists m', c. split; [right; auto|]. split; [apply (view_marks _ _ _ _ _ _ _ V); exact K|exact F3].
Qed.
Lemma cast_list0 : forall pref p t except flag l s u s', tied s -> NoDup l -> assoc pref (s_heap s) = Some p ->
  mfor l (fun h => c <- cli h ;;
    if ctype_eqb (cl_type c) T_SERVER && (match cl_conn c with Some _ => true | None => false end) && negb (heq h This_Server) && negb (oheq except h)
    then if match flag with None => true | Some f => strchr0 f (cl_flags c) end then Write_Server h pref (firstn 999 (cut0 t)) ;;; ret tt else ret tt else ret tt) s = Ok u s' ->
  view s s' /\ (forall i, flag_of s' i = flag_of s i) /\
  forall j, (is_open s j = true -> forall g, In g l -> hit s except flag g j -> written s s' j [wire (":"%char :: id_of p ++ " "%char :: t)]) /\
    ((is_open s j = true -> forall g, In g l -> ~ hit s except flag g j) -> written s s' j []).
Proof.
  intros pref p t except flag. induction l as [|h l IH]; intros s u s' T N A H; cbn [mfor] in H.
  - apply ret_ok in H. destruct H as [_ ->]. split; [reflexivity|]. split; auto. intro j. split; [intros _ g []|intros _; apply written_nil; reflexivity].
  - bd H as u1 s1 H1. inversion N as [|a q N1 N2]; subst a q.
    assert (G : view s s1 /\ (forall i, flag_of s1 i = flag_of s i) /\ forall j, (is_open s j = true -> hit s except flag h j -> written s s1 j [wire (":"%char :: id_of p ++ " "%char :: t)]) /\ ((is_open s j = true -> ~ hit s except flag h j) -> written s s1 j [])).
    { bd H1 as c s2 H2. apply cli_ok in H2. destruct H2 as [AC ->].
      assert (Q : (exists j, hit s except flag h j /\ cl_conn c = Some j /\ (Write_Server h pref (firstn 999 (cut0 t)) ;;; ret tt) s = Ok u1 s1) \/ (s1 = s /\ forall j, ~ hit s except flag h j)).
      { destruct (_ && _) eqn:E in H1.
        - apply andb_true_iff in E. destruct E as [E E4]. apply andb_true_iff in E. destruct E as [E E3]. apply andb_true_iff in E. destruct E as [E1 E2]. apply ctype_eqb_eq in E1. destruct (cl_conn c) as [j|] eqn:CJ; [|discriminate E2].
          assert (NE : except <> Some h) by (intros ->; cbn [oheq] in E4; rewrite Nat.eqb_refl in E4; discriminate E4).
          destruct (match flag with None => true | Some f => strchr0 f (cl_flags c) end) eqn:EF in H1.
          + left. exists j. split; auto. exists c. split; auto. split; auto. split; auto. split; auto. destruct flag; auto.
          + right. apply ret_ok in H1. destruct H1 as [_ ->]. split; auto. intros j' (d & A2 & _ & _ & _ & F). rewrite AC in A2. injection A2 as <-. destruct flag; congruence.
        - right. apply ret_ok in H1. destruct H1 as [_ ->]. split; auto. intros j (d & A2 & TS & CJ & NE & _). rewrite AC in A2. injection A2 as <-. rewrite TS, CJ in E. change (ctype_eqb T_SERVER T_SERVER) with true in E. cbn [andb] in E.
          assert (NT : heq h This_Server = false). { apply Nat.eqb_neq. intros ->. destruct (td_me _ T) as (me & M1 & _ & M2 & _). rewrite AC in M1. injection M1 as <-. congruence. } rewrite NT in E. cbn [negb andb] in E. apply negb_false_iff in E. destruct except as [x|]; [|discriminate E]. apply Nat.eqb_eq in E. subst x. auto. }
      destruct Q as [(j & HT & CJ & H2)|[-> NH]].
      2: { split; [reflexivity|]. split; auto. intro j. split; [intros _ X; destruct (NH _ X)|intros _; apply written_nil; reflexivity]. }
      bd H2 as b s2 H3. apply ret_ok in H2. destruct H2 as [_ <-]. unfold Write_Server in H3. bd H3 as nh s2 H4. apply Client_NextHop_next in H4. destruct H4 as [-> NX]. assert (nh = h) by (eapply local_hop0; eauto). subst nh.
      bd H3 as ty s2 H4. apply is_type_ok in H4. destruct H4 as (-> & c2 & A2 & ->). bd H3 as u2 s2 H4.
      assert (s2 = s). { destruct (ctype_eqb _ _) in H4; [apply ret_ok in H4; tauto|discriminate H4]. } subst s2. bd H3 as o s2 H5. unfold Client_Conn in H5. bd H5 as c3 s3 H6. apply cli_ok in H6. destruct H6 as [A3 ->]. apply ret_ok in H5. destruct H5 as [-> ->].
      rewrite AC in A3. injection A3 as <-. rewrite CJ in H3. bd H3 as i s2 H5. apply nonnull_ok in H5. destruct H5 as [EI ->]. injection EI as <-.
      destruct (Conn_WriteStr_ok _ _ _ _ _ _ H3) as (vals & s3 & M & [W1 W2 W3 W4]). apply mseq_cons_ok in M. destruct M as (a & s4 & v & M1 & M & ->). apply aID_ok in M1. destruct M1 as [-> (f' & A' & ->)]. rewrite A in A'. injection A' as <-.
      apply mseq_cons_ok in M. destruct M as (a & s4 & v2 & M1 & M & ->). apply aS_ok in M1. destruct M1 as [-> ->]. apply mseq_nil_ok in M. destruct M as [-> ->]. rewrite (wire_pre _ _ _ eq_refl) in W4. split; auto. split; auto. intro k.
      assert (HJ : forall k, hit s except flag h k -> k = j). { intros k0 (d & A4 & _ & CK & _). rewrite AC in A4. injection A4 as <-. congruence. }
      split.
      - intros OP HK. apply HJ in HK. subst k. rewrite OP in W3. subst b. pose proof (written_one _ _ _ _ W4 j) as Q. rewrite Nat.eqb_refl in Q. exact Q.
      - intro NH. destruct b.
        + pose proof (written_one _ _ _ _ W4 k) as Q. destruct (Nat.eqb_spec j k) as [-> |]; [|exact Q]. exfalso. apply NH; auto.
        + apply written_nil. exact W4. }
    destruct G as (V & FL & G). destruct (IH s1 u s') as (V2 & FL2 & G2); auto; [eapply view_tied; eauto|rewrite (v_heap _ _ V); exact A|]. split; [etransitivity; eauto|]. split; [intro; rewrite FL2; auto|].
    intro j. specialize (G j). specialize (G2 j). rewrite (view_open _ _ _ V) in G2. destruct G as [G3 G4]. destruct G2 as [G5 G6]. split.
    + intros OP g [<- |I] HT.
      * change [wire (":"%char :: id_of p ++ " "%char :: t)] with ([wire (":"%char :: id_of p ++ " "%char :: t)] ++ []). eapply written_app; [apply G3; auto|]. apply G6. intros _ g I X. apply (view_hit _ _ _ _ _ _ V) in X. destruct HT as (d & K1 & _ & K2 & _). destruct X as (d' & K3 & _ & K4 & _). destruct (conn_client0 _ _ _ _ _ _ T K1 K3 K2 K4) as [-> _]. contradiction.
      * change [wire (":"%char :: id_of p ++ " "%char :: t)] with ([] ++ [wire (":"%char :: id_of p ++ " "%char :: t)]). eapply written_app; [apply G4|apply (G5 OP g I); apply (view_hit _ _ _ _ _ _ V); exact HT]. intros _ X. destruct HT as (d & K1 & _ & K2 & _). destruct X as (d' & K3 & _ & K4 & _). destruct (conn_client0 _ _ _ _ _ _ T K1 K3 K2 K4) as [-> _]. contradiction.
    + intro X. change (@nil bytes) with (@nil bytes ++ []). eapply written_app; [apply G4; intros OP; apply X; auto; left; auto|apply G6]. intros OP g I Q. apply (X OP g); [right; auto|]. apply (view_hit _ _ _ _ _ _ V). exact Q.
Qed.
Lemma marks_local0 : forall s h m j d, tied s -> (marks s h false m j d <-> m <> h /\ assoc m (s_heap s) = Some d /\ cl_conn d = Some j /\ cl_type d <> T_SERVER).
Proof.
  intros s h m j d T. split.
  - intros (cm & x & A & [E|[E1 E2]] & N & NE & A2 & C2); [discriminate E|]. destruct (cl_conn cm) as [j'|] eqn:CM; [|congruence]. assert (x = m) by (eapply local_hop0; eauto). subst x. rewrite A in A2. injection A2 as <-. repeat (split; [congruence|]). auto.
  - intros (NE & A & C & TS). exists d, m. split; auto. split; [right; split; congruence|]. split; [|auto]. eapply NH_direct; [rewrite lookup_assoc; exact A|]. destruct (td_local _ T _ _ _ A C); auto.
Qed.
(** the channels' members are marked, channel by channel *)
Lemma mark_chans : forall from r l s u s', tied s -> mfor l (fun ch => Mark_Members from ch r) s = Ok u s' ->
  view s s' /\ s_out s' = s_out s /\
  forall j, (flag_of s' j = flag_of s j /\ forall ch m c, In ch l -> is_on s m ch -> ~ marks s from r m j c) \/
    exists ch m c, In ch l /\ is_on s m ch /\ marks s from r m j c /\ flag_of s' j = srv_flag c.
Proof.
  intros from r. induction l as [|ch l IH]; intros s u s' T H; cbn [mfor] in H.
  - apply ret_ok in H. destruct H as [_ ->]. split; [reflexivity|]. split; [reflexivity|]. intro j. left. split; auto.
  - bd H as u1 s1 H1. unfold Mark_Members in H1. bd H1 as ms s2 H2. unfold Members in H2. rdgets H2.
    destruct (mark_list0 _ _ _ _ _ _ T H1) as (V & O & F). destruct (IH _ _ _ (view_tied _ _ V T) H) as (V2 & O2 & F2). split; [etransitivity; eauto|]. split; [congruence|]. intro j.
    destruct (F2 j) as [[F3 F4]|(ch' & m' & c' & I' & ON & K & F3)].
    + destruct (F j) as [[F5 F6]|(m & c & I & K & F5)].
      * left. split; [congruence|]. intros ch' m c [<- |I] ON.
        -- apply F6. apply member_on. exact ON.
        -- intro K. apply (F4 ch' m c I); [apply (view_is_on _ _ _ _ V); exact ON|apply (view_marks _ _ _ _ _ _ _ V); exact K].
      * right. exists ch, m, c. split; [left; auto|]. split; [apply member_on; exact I|]. split; auto. congruence.
    + right. exists ch', m', c'. split; [right; auto|]. split; [apply (view_is_on _ _ _ _ V); exact ON|]. split; [apply (view_marks _ _ _ _ _ _ _ V); exact K|exact F3].
Qed.
Lemma chans_of : forall s h ch, In ch (map mb_chan (filter (fun m => heq (mb_client m) h) (s_members s))) <-> is_on s h ch.
Proof.
  intros s h ch. unfold is_on. rewrite in_map_iff. split; intros (x & E & I).
  - apply filter_In in I. destruct I as [I E2]. apply Nat.eqb_eq in E2. exists x. auto.
  - destruct I as [I1 I2]. exists x. split; auto. apply filter_In. split; auto. apply Nat.eqb_eq. auto.
Qed.
Lemma related_prefix : forall h pref r f l vals s u s' p, tied s -> NoDup (map fst (s_conns s)) -> assoc pref (s_heap s) = Some p -> settled p -> fits p -> cl_id p <> [] ->
  prints l s vals -> IRC_WriteStrRelatedPrefix h pref r f l s = Ok u s' ->
  view s s' /\ forall j, (is_open s j = true -> forall ch m c, is_on s h ch -> is_on s m ch -> marks s h r m j c -> written s s' j [line_from s p c (fmt (B f) vals)]) /\
    ((is_open s j = true -> forall ch m c, is_on s h ch -> is_on s m ch -> ~ marks s h r m j c) -> written s s' j []).
Proof.
  intros h pref r f l vals s u s' p T W A S F NI M H. unfold IRC_WriteStrRelatedPrefix in H. bd H as buf s1 H1. apply vsn_ok in H1. destruct H1 as (v2 & M2 & ->). destruct (M _ _ M2) as [-> ->].
  bd H as u1 s1 H1. apply ClearFlags_ok in H1. destruct H1 as (V1 & O1 & F1). bd H as cl s3 H3. unfold ChannelsOf in H3. rdgets H3. rewrite (v_members _ _ V1) in H. bd H as u2 s2 H2.
  destruct (mark_chans _ _ _ _ _ _ (view_tied _ _ V1 T) H2) as (V2 & O2 & F2). assert (V12 : view s s2) by (transitivity s1; auto).
  unfold Send_Marked_Connections in H. bd H as cs s3 H3. unfold Conn_All in H3. rdgets H3. set (L := map fst (filter (fun p => co_open (snd p)) (s_conns s2))) in *.
  assert (NK : NoDup (map fst (s_conns s2))) by (rewrite (view_keys _ _ V12); exact W).
  assert (IL : forall i, In i L <-> is_open s2 i = true).
  { intro i. unfold L, is_open. rewrite in_map_iff. split.
    - intros ([k c] & <- & I). apply filter_In in I. destruct I as [I E]. cbn [fst snd] in *. apply In_assoc in I; auto. rewrite I. exact E.
    - destruct (assoc i (s_conns s2)) as [c|] eqn:E; [|discriminate]. intro O. exists (i, c). split; auto. apply filter_In. split; auto. apply assoc_In. exact E. }
  assert (NL : NoDup L). { unfold L. clear - NK. induction (s_conns s2) as [|[k c] q IH]; [constructor|]. cbn [map] in NK. inversion NK as [|a b N1 N2]; subst. cbn [filter snd]. destruct (co_open c); auto. cbn [map fst]. constructor; auto. intro I. apply N1. apply in_map_iff in I. destruct I as (x & E & I). apply filter_In in I. rewrite <- E. apply in_map. apply I. }
  assert (A2 : assoc pref (s_heap s2) = Some p) by (rewrite (v_heap _ _ V12); exact A). destruct (send_list pref p (fmt (B f) vals) L s2 u s' A2 S F) as [V3 O3]; [intros i I; apply IL; exact I|exact H|].
  assert (V : view s s') by (transitivity s2; auto). split; auto. intro j.
  assert (WR : written s s' j (if in_dec Nat.eq_dec j L then map snd (line_for s2 p (fmt (B f) vals) j) else [])).
  { exists (rev (flat_map (line_for s2 p (fmt (B f) vals)) L)). split; [rewrite O3, O2, O1; reflexivity|]. rewrite flat_filter; auto.
    - destruct (in_dec _ _ _); auto. rewrite map_rev, rev_involutive. reflexivity.
    - intros i q. unfold line_for. destruct (_ =? _); [intros [<- |[]]; reflexivity|]. destruct (_ =? _); [intros [<- |[]]; reflexivity|intros []]. }
  assert (VO : is_open s2 j = is_open s j) by (apply view_open; auto). assert (MK : forall m c, marks s1 h r m j c <-> marks s h r m j c) by (intros; apply view_marks; auto).
  assert (FL : forall ch m c, is_on s h ch -> is_on s m ch -> marks s h r m j c -> flag_of s2 j = srv_flag c).
  { intros ch m c I0 I K. destruct (F2 j) as [[F3 F4]|(ch' & m' & c' & _ & I' & K' & F3)]; [exfalso; apply (F4 ch m c); [apply chans_of; exact I0|apply (view_is_on _ _ _ _ V1); exact I|apply MK; exact K]|]. rewrite F3. f_equal. apply MK in K'. eapply marks_fun0; eauto. }
  destruct (in_dec Nat.eq_dec j L) as [J|J].
  - apply IL in J. rewrite VO in J. split.
    + intros _ ch m c I0 I K. specialize (FL ch m c I0 I K). unfold line_for in WR. rewrite FL in WR. unfold line_from. rewrite (view_shown _ _ _ V12), (fits_type_id _ NI) in WR. unfold srv_flag in WR. destruct (ctype_eqb (cl_type c) T_SERVER); exact WR.
    + intro K. specialize (K J). destruct (F2 j) as [[F3 F4]|(ch' & m' & c' & I0 & I' & K' & F3)]; [|exfalso; apply (K ch' m' c'); [apply chans_of; exact I0|apply (view_is_on _ _ _ _ V1); exact I'|apply MK; exact K']].
      unfold line_for in WR. rewrite F3, F1 in WR. exact WR.
  - split; [|intros _; exact WR]. intros O. destruct J. apply IL. congruence.
Qed.
(** for the users of this server: those who share a channel *)
Lemma related_near : forall u d f l vals s w s', tied s -> NoDup (map fst (s_conns s)) -> assoc u (s_heap s) = Some d -> settled d -> fits d -> cl_id d <> [] -> prints l s vals ->
  IRC_WriteStrRelatedPrefix u u false f l s = Ok w s' ->
  view s s' /\ forall j, (is_open s j = true -> forall x, near s u j x -> written s s' j [line_from s d x (fmt (B f) vals)]) /\
    ((is_open s j = true -> forall x, ~ near s u j x) -> written s s' j []).
Proof.
  intros u d f l vals s w s' T N A S F NI P H. destruct (related_prefix _ _ _ _ _ _ _ _ _ _ T N A S F NI P H) as [V G]. split; auto. intro j. destruct (G j) as [G1 G2]. split.
  - intros OP x (g & ch & NE & I1 & I2 & K1 & K2 & K3). apply (G1 OP ch g x); auto. rewrite lookup_assoc in K1. apply marks_local0; auto.
  - intro X. apply G2. intros OP ch m e I1 I2 M. apply marks_local0 in M; auto. destruct M as (M1 & M2 & M3 & M4). apply (X OP e). exists m, ch. rewrite lookup_assoc. auto 10.
Qed.
Lemma UpdateIdle_view : forall i s u s', Conn_UpdateIdle i s = Ok u s' -> view s s' /\ s_out s' = s_out s.
Proof.
  intros i s u s' H. unfold Conn_UpdateIdle in H. bd H as t s1 H1. unfold now in H1. rdgets H1. apply upd_con_ok in H. subst s'. split; [|reflexivity]. apply (view_con i (set_co_lastprivmsg _)). intro; split; reflexivity.
Qed.
Lemma register_quiet : forall h c s u s', assoc h (s_heap s) = Some c -> settled c -> Client_RegisterWhowas h s = Ok u s' -> view s s' /\ s_out s' = s_out s.
Proof.
  intros h c s u s' A S H. unfold Client_RegisterWhowas in H. bd H as mp s1 H1. unfold cf in H1. rdgets H1. destruct (cf_moreprivacy (s_conf s)); [apply ret_ok in H; destruct H as [_ ->]; split; reflexivity|].
  bd H as c1 s1 H1. apply cli_ok in H1. destruct H1 as [H1 ->]. rewrite A in H1. injection H1 as <-. bd H as t s1 H2. unfold now in H2. rdgets H2. destruct (_ <? _)%Z in H; [apply ret_ok in H; destruct H as [_ ->]; split; reflexivity|].
  bd H as last s1 H2. rdgets H2. cbv zeta in H. bd H as id s1 H2. bd H as us s2 H3. bd H as ho s3 H4. bd H as inf s4 H5. bd H as it s5 H6. bd H as srv s6 H7. apply modify_ok in H.
  apply Client_ID_ok in H2. destruct H2 as [-> _]. unfold Client_User in H3. bd H3 as c1 s7 H8. apply cli_ok in H8. destruct H8 as [H8 ->]. apply ret_ok in H3. destruct H3 as [_ ->].
  assert (s3 = s). { unfold Client_HostnameDisplayed in H4. bd H4 as c2 s7 H9. apply cli_ok in H9. destruct H9 as [H9 ->]. rewrite A in H9. injection H9 as <-. destruct (memb "x" (cl_modes c)) eqn:X; cbn [negb] in H4; [|apply ret_ok in H4; tauto].
    destruct (cl_cloaked c) eqn:K; [apply ret_ok in H4; tauto|]. exfalso. apply S; auto. apply memb_In. exact X. } subst s3.
  unfold Client_Info in H5. bd H5 as c2 s7 H9. apply cli_ok in H9. destruct H9 as [_ ->]. apply ret_ok in H5. destruct H5 as [_ ->]. unfold Client_Introducer in H6. bd H6 as c3 s7 H9. apply cli_ok in H9. destruct H9 as [_ ->]. apply nonnull_ok in H6. destruct H6 as [_ ->].
  apply Client_ID_ok in H7. destruct H7 as [-> _]. subst s'. split; [split; reflexivity|reflexivity].
Qed.
Lemma view_near : forall s s' u j x, view s s' -> (near s' u j x <-> near s u j x).
Proof. intros s s' u j x V. unfold near. rewrite (v_heap _ _ V). split; intros (g & ch & K0 & K1 & K2 & K3); exists g, ch; split; auto; split; [apply (view_is_on _ _ _ _ V); exact K1| |apply (view_is_on _ _ _ _ V); exact K1|]; (split; [apply (view_is_on _ _ _ _ V); exact K2|exact K3]). Qed.
Lemma view_line : forall s s' d x t, view s s' -> line_from s' d x t = line_from s d x t.
Proof. intros s s' d x t V. unfold line_from. rewrite (view_shown _ _ _ V). reflexivity. Qed.
Lemma fmt_nick : forall x, fmt (B "NICK :%s") [FS x] = nick_text x.
Proof. intro x. change (B "NICK :" ++ x ++ [] = nick_text x). rewrite app_nil_r. reflexivity. Qed.
(** who is told of the new name: [e] is the server which has told us (nobody, if the user is one of ours) *)
Lemma change_cast : forall h u new inform s w s' d i, tree s -> keyed s -> NoDup (s_clients s) -> assoc u (s_heap s) = Some d -> settled d -> fits d -> cl_id d <> [] ->
  (exists c, assoc h (s_heap s) = Some c /\ cl_conn c = Some i /\ (inform = true /\ u = h /\ cl_type c <> T_SERVER \/ inform = false /\ cl_type c = T_SERVER)) -> Change_Nick h u new inform s = Ok w s' ->
  (exists d', assoc u (s_heap s') = Some d' /\ cl_id d' = strlcpy CLIENT_ID_LEN new) /\
  forall j, is_open s j = true ->
  (forall e, link s j e -> written s s' j (if (i =? j)%nat then [] else [relayed d (nick_text new)])) /\
  (forall e, near s u j e -> written s s' j [line_from s d e (nick_text new)]) /\
  (inform = true -> i = j -> written s s' j [line_from s d d (nick_text new)]) /\
  ((forall e, ~ link s j e) -> (forall e, ~ near s u j e) -> i <> j -> written s s' j []).
Proof.
  intros h u new inform s w s' d i T KY NC AU S F NI (c & AH & CI & DI) H. unfold Change_Nick in H. bd H as o s1 H1. apply Client_Conn_ok in H1. destruct H1 as (-> & d1 & A1 & ->). rewrite AU in A1. injection A1 as <-.
  bd H as u1 s1 H1. assert (P0 : view s s1 /\ s_out s1 = s_out s). { unfold opt in H1. destruct (cl_conn d); [eapply UpdateIdle_view; eauto|apply ret_ok in H1; destruct H1 as [_ ->]; split; reflexivity]. } clear H1. destruct P0 as [V1 O1].
  bd H as u2 s2 H2.
  assert (P1 : view s s2 /\ forall j, is_open s j = true ->
    (forall e, link s j e -> written s s2 j (if (i =? j)%nat then [] else [relayed d (nick_text new)])) /\
    (inform = true -> i = j -> written s s2 j [line_from s d d (nick_text new)]) /\
    ((forall e, ~ link s j e) -> i <> j -> written s s2 j [])).
  { assert (CAST : forall exc sa sb v, view s sa -> IRC_WriteStrServersPrefix exc u "NICK :%s" [aS new] sa = Ok v sb -> view s sb /\ forall j, (is_open s j = true -> forall g, hit s exc None g j -> written sa sb j [relayed d (nick_text new)]) /\ ((is_open s j = true -> forall g, ~ hit s exc None g j) -> written sa sb j [])).
    { intros exc sa sb v V HH. unfold IRC_WriteStrServersPrefix in HH. eapply cast in HH; [|eapply view_tree; eauto|rewrite (v_clients _ _ V); exact NC|rewrite (v_heap _ _ V); exact AU|apply prints_S, prints_nil]. destruct HH as (V2 & _ & G). split; [etransitivity; eauto|]. intro j. destruct (G j) as [G1 G2]. rewrite (view_open _ _ _ V) in G1, G2.
      rewrite fmt_nick, (fits_type_id _ NI) in G1. split.
      + intros OP g HT. apply (G1 OP g). apply (view_hit _ _ _ _ _ _ V). exact HT.
      + intro X. apply G2. intros OP g HT. apply (X OP g). apply (view_hit _ _ _ _ _ _ V). exact HT. }
    destruct DI as [(-> & -> & TC)|(-> & TC)].
    - rewrite AU in AH. injection AH as <-. bd H2 as v1 s3 H3. unfold void in H3. bd H3 as b0 s4 H4. apply ret_ok in H3. destruct H3 as [_ ->].
      eapply prefix_ok in H4; [|rewrite (v_heap _ _ V1); exact AU|exact S|exact F|exact NI|apply prints_S, prints_nil].
      destruct H4 as (x & e & j0 & N1 & A1 & C1 & V3 & EB & OO). assert (N2 : next_hop s h x) by (revert N1; apply view_next; rewrite (v_heap _ _ V1); reflexivity). assert (x = h) by (exact (local_hop s h d i x T AU CI N2)). subst x. rewrite (v_heap _ _ V1), AU in A1. injection A1 as <-. rewrite CI in C1. injection C1 as <-.
      rewrite (view_open _ _ _ V1) in EB. subst b0. rewrite fmt_nick, (view_line _ _ _ _ _ V1), O1 in OO. assert (V13 : view s s4) by (transitivity s1; auto). destruct (CAST _ _ _ _ V13 H2) as [V2 G]. split; auto. intros j OP.
      assert (W1 : i = j -> written s s4 j [line_from s d d (nick_text new)]). { intros <-. rewrite OP in OO. pose proof (written_one _ _ _ _ OO i) as W. rewrite Nat.eqb_refl in W. exact W. }
      assert (W2 : i <> j -> written s s4 j []). { intros NE. destruct (is_open s i). - pose proof (written_one _ _ _ _ OO j) as W. destruct (Nat.eqb_spec i j); [contradiction|exact W]. - apply written_nil. exact OO. }
      assert (LK : forall e, link s j e -> i <> j). { intros e (g & [_ K] & K2 & K3) <-. rewrite lookup_assoc in K. destruct (conn_client _ _ _ _ _ _ T K AU K3 CI) as [-> ->]. contradiction. }
      split; [|split].
      + intros e LE. pose proof (LK _ LE) as NE. destruct (Nat.eqb_spec i j); [contradiction|]. match goal with |- written _ _ _ ?x => change x with ([] ++ x) end. eapply written_app; [apply W2; auto|]. destruct LE as (g & [_ K] & K2 & K3). rewrite lookup_assoc in K. apply (proj1 (G j) OP g). exists e. repeat (split; auto). discriminate.
      + intros _ E. match goal with |- written _ _ _ ?x => change x with (x ++ []) end. eapply written_app; [apply W1; auto|]. apply (proj2 (G j)). intros _ g (e & K1 & K2 & K3 & _). apply (LK e); auto. exists g. split; auto. split; [eapply tr_listed; eauto|rewrite lookup_assoc; exact K1].
      + intros X NE. change (@nil bytes) with (@nil bytes ++ []). eapply written_app; [apply W2; auto|]. apply (proj2 (G j)). intros _ g (e & K1 & K2 & K3 & _). apply (X e). exists g. split; auto. split; [eapply tr_listed; eauto|rewrite lookup_assoc; exact K1].
    - destruct (CAST _ _ _ _ V1 H2) as [V2 G]. split; auto. intros j OP. split; [|split; [discriminate|]].
      + intros e (g & [_ K] & K2 & K3). rewrite lookup_assoc in K. apply (written_from _ _ _ _ _ O1). destruct (Nat.eqb_spec i j) as [<- |NE].
        * apply (proj2 (G i)). intros _ g' (e' & K4 & _ & K6 & K7 & _). destruct (conn_client _ _ _ _ _ _ T K4 AH K6 CI) as [-> _]. apply K7. reflexivity.
        * apply (proj1 (G j) OP g). exists e. repeat (split; auto). intro X. injection X as <-. rewrite AH in K. injection K as <-. congruence.
      + intros X _. apply (written_from _ _ _ _ _ O1). apply (proj2 (G j)). intros _ g (e & K1 & K2 & K3 & _). apply (X e). exists g. split; auto. split; [eapply tr_listed; eauto|rewrite lookup_assoc; exact K1]. }
  clear H2. destruct P1 as [V2 P1]. bd H as u3 s3 H3.
  eapply related_near in H3; [|eapply view_tied; [eassumption|apply tree_tied; exact T]|rewrite (view_keys _ _ V2); apply (ky_conns _ KY)|rewrite (v_heap _ _ V2); exact AU|exact S|exact F|exact NI|apply prints_S, prints_nil]. destruct H3 as [V3 P2]. assert (V23 : view s s3) by (transitivity s2; auto).
  bd H as u4 s4 H4. eapply register_quiet in H4; [|rewrite (v_heap _ _ V23); exact AU|exact S]. destruct H4 as [V4 O4]. assert (V24 : view s s4) by (transitivity s3; auto).
  unfold Client_SetID in H. bd H as k s5 H5. unfold cf in H5. rdgets H5. apply upd_cli_ok in H. destruct H as (d1 & A1 & ->). split.
  { eexists. cbn [s_heap set_s_heap]. rewrite assoc_aupd, Nat.eqb_refl, A1. cbn [option_map]. split; [reflexivity|]. unfold set_id. destruct (cf_cloakusertonick _); reflexivity. }
  assert (OUT : forall j a, written s s3 j a -> written s (set_s_heap (aupd u (set_id (cf_cloakusertonick (s_conf s4)) new) (s_heap s4)) s4) j a) by (intros j a X; eapply written_to; [exact X|exact O4]).
  intros j OP. destruct (P1 j OP) as (Q1 & Q2 & Q3). destruct (P2 j) as [R1 R2]. rewrite (view_open _ _ _ V2) in R1, R2. specialize (R1 OP).
  assert (NN : (forall x, ~ near s u j x) -> written s2 s3 j []) by (intro X; apply R2; intros _ x Y; apply (X x); apply (view_near _ _ _ _ _ V2); exact Y).
  assert (LN : forall e, link s j e -> forall x, ~ near s u j x). { intros e (g & [_ K] & K2 & K3) x (g' & ch & _ & _ & _ & K4 & K5 & K6). rewrite lookup_assoc in K, K4. destruct (conn_client _ _ _ _ _ _ T K K4 K3 K5). congruence. }
  split; [|split; [|split]].
  - intros e LE. apply OUT. match goal with |- written _ _ _ ?x => rewrite <- (app_nil_r x) end. eapply written_app; [apply (Q1 e LE)|apply NN; eapply LN; eauto].
  - intros e NE. apply OUT. match goal with |- written _ _ _ ?x => change x with ([] ++ x) end. eapply written_app.
    + apply Q3; [intros x LE; apply (LN x LE e NE)|]. intros <-. destruct NE as (g & ch & N1 & _ & _ & K4 & K5 & K6). rewrite lookup_assoc in K4. destruct (conn_client _ _ _ _ _ _ T K4 AH K5 CI) as [-> ->]. destruct DI as [(_ & -> & _)|(_ & X)]; contradiction.
    + rewrite <- fmt_nick, <- (view_line _ _ _ _ _ V2). apply R1. apply (view_near _ _ _ _ _ V2). exact NE.
  - intros II E. apply OUT. match goal with |- written _ _ _ ?x => rewrite <- (app_nil_r x) end. eapply written_app; [apply Q2; auto|]. apply NN. subst j. intros x (g & ch & N1 & _ & _ & K4 & K5 & K6). rewrite lookup_assoc in K4. destruct (conn_client _ _ _ _ _ _ T K4 AH K5 CI) as [-> ->]. destruct DI as [(_ & -> & _)|(X & _)]; [contradiction|congruence].
  - intros X1 X2 NE. apply OUT. change (@nil bytes) with (@nil bytes ++ []). eapply written_app; [apply Q3; auto|apply NN; auto].
Qed.
Lemma wr_same_id : forall s s' u d, assoc u (s_heap s) = Some d -> wr s s' -> ~ exists d', assoc u (s_heap s') = Some d' /\ cl_id d' <> cl_id d.
Proof. intros s s' u d A W (d' & A' & N). destruct (wr_cli _ _ _ _ W A) as (x & A2). rewrite A2 in A'. injection A' as <-. apply N. destruct d; reflexivity. Qed.
Lemma rel_wr : forall A (m : M A) s x s', rel wr m -> m s = Ok x s' -> wr s s'.
Proof. intros A m s x s' R H. exact (R _ _ _ H). Qed.
Ltac nochange H A CH := exfalso; match type of H with ?m _ = _ => let QN := fresh in assert (QN : rel wr m) by rel_auto; exact (wr_same_id _ _ _ _ A (QN _ _ _ H) CH) end.
Theorem nick_link : forall s i h c text new u d b s', live s -> undisturbed s -> client_of s i h c -> acts s h c text "NICK" [new] u d -> nick_fits d -> settled d ->
  Parse_Request i text s = Ok b s' -> (exists d', lookup u (s_heap s') = Some d' /\ cl_id d' <> cl_id d) ->
  (exists d', lookup u (s_heap s') = Some d' /\ cl_id d' = new) /\ to_servers s s' i d (nick_text new) /\ to_near s s' u d (nick_text new) /\
  (cl_type c = T_USER -> is_open s i = true -> written s s' i [line_from s d c (nick_text new)]) /\
  (forall j, is_open s j = true -> (forall x, ~ link s j x) -> (forall x, ~ near s u j x) -> i <> j -> written s s' j []).
Proof.
  intros s i h c text new u d b s' L U C AC NF S H CH. destruct (actor _ _ _ _ _ _ _ _ _ L U C AC NF) as (T & KY & NC & AH & CI & AU & TD & F & NU & NX).
  assert (TY : cl_type c = T_USER \/ cl_type c = T_SERVER) by (destruct AC as [(X & _)|(X & _)]; auto).
  eapply run_as in H; [|exact L|exact C|exact AC|exact NF|reflexivity|destruct TY as [-> | ->]; reflexivity|cbn; lia|intros m E; cbn in E; first [discriminate E|injection E as <-; cbn; lia]].
  destruct H as (req & s1 & V & O1 & SN & EA & H & Q). change (IRC_NICK h req s1 = Ok b s') in H. pose proof (acts_req _ _ _ _ _ _ _ V Q) as Q1.
  assert (AH1 : assoc h (s_heap s1) = Some c) by (rewrite (v_heap _ _ V); exact AH). assert (AU1 : assoc u (s_heap s1) = Some d) by (rewrite (v_heap _ _ V); exact AU).
  assert (CH1 : exists d', assoc u (s_heap s') = Some d' /\ cl_id d' <> cl_id d) by (destruct CH as (d' & K & N); exists d'; rewrite lookup_assoc in K; auto).
  assert (HN : nick_target h u new s1 = Ok b s').
  { unfold IRC_NICK in H. cbv zeta in H. bd H as t s2 H2. apply Client_Type_ok in H2. destruct H2 as (-> & c1 & A1 & ->). rewrite AH1 in A1. injection A1 as <-. unfold argc, arg in H. rewrite EA in H. cbn [List.length Nat.eqb nth] in H.
    destruct Q as [(TU & P & -> & ->)|(TS & p & P & TC & SE)].
    - rewrite TU in H. bd H as r s2 H2. apply HasMode_ok in H2. destruct H2 as (-> & _). destruct r; [nochange H AU1 CH1|exact H].
    - rewrite TS in H. unfold with_prefix in H. rewrite P in H. bd H as o s2 H2. destruct (SE _ _ H2) as [-> ->]. exact H. }
  clear H. unfold nick_target in HN. bd HN as id s2 H2. apply Client_ID_ok in H2. destruct H2 as [-> (d1 & A1 & ->)]. rewrite AU1 in A1. injection A1 as <-. rewrite (fits_type_id _ (proj1 NF)) in HN.
  destruct (beq (cl_id d) new) eqn:EN; [nochange HN AU1 CH1|]. bd HN as ok s2 H2. destruct ok; cbn [negb] in HN.
  2: { exfalso. assert (W : wr s1 s2). { destruct (negb (caseeq (cl_id d) new)); [|apply ret_ok in H2; destruct H2; discriminate]. match type of H2 with ?m _ = _ => assert (QQ : rel wr m) by rel_auto; exact (QQ _ _ _ H2) end. }
       apply ret_ok in HN. destruct HN as [_ ->]. exact (wr_same_id _ _ _ _ AU1 W CH1). }
  assert (NS : s2 = s1 /\ strlcpy CLIENT_ID_LEN new = new).
  { destruct (caseeq (cl_id d) new) eqn:CE; cbn [negb] in H2.
    - apply ret_ok in H2. destruct H2 as [_ ->]. split; auto. apply strlcpy_short. rewrite <- (caseeq_len _ _ CE). destruct NF as [_ NL]. unfold CLIENT_ID_LEN. lia.
    - apply CheckNick_ok in H2. destruct H2 as (-> & VN & _). split; auto. eapply valid_nick_short; [exact VN|]. rewrite (v_conf _ _ V). destruct (live_conf _ L) as [[_ CO] _]. exact CO. }
  destruct NS as [-> NS]. clear H2. bd HN as t s2 H2. apply Client_Type_ok in H2. destruct H2 as (-> & d1 & A1 & ->). rewrite AU1 in A1. injection A1 as <-. rewrite TD in HN. unfold nick_change in HN.
  bd HN as usr s2 H2. apply is_type_ok in H2. destruct H2 as (-> & c1 & A1 & ->). rewrite AH1 in A1. injection A1 as <-. bd HN as op s2 H2. apply HasMode_ok in H2. destruct H2 as (-> & _). bd HN as l s2 H2. unfold Chans in H2. rdgets H2. bd HN as n s2 H2.
  assert (E2 : s2 = s1). { destruct (_ && _) in H2; [|apply ret_ok in H2; tauto]. apply mfind_ok in H2; [tauto|]. intros a b0 s3 H3. apply andM_ok in H3. destruct H3 as (z & s4 & G1 & H3). apply ChHasMode_ok in G1. destruct G1 as (-> & _). destruct H3 as [(_ & _ & ->)|(_ & H3)]; auto. apply IsMemberOf_on in H3. tauto. }
  subst s2. destruct n as [ch|]; [nochange HN AU1 CH1|]. bd HN as u1 s2 H3. bd HN as u2 s3 H4. apply ret_ok in HN. destruct HN as [_ ->]. apply SetPenalty_view in H4. destruct H4 as (V4 & _ & O4).
  eapply (change_cast h u new) with (d := d) (i := i) in H3; [|eapply view_tree; eauto|eapply view_keyed; eauto|rewrite (v_clients _ _ V); exact NC|exact AU1|exact S|exact F|exact (proj1 NF)|].
  2: { exists c. split; auto. split; auto. destruct Q as [(TU & _ & -> & _)|(TS & _)]; [left; rewrite TU; split; [reflexivity|split; [reflexivity|discriminate]]|right; rewrite TS; auto]. }
  destruct H3 as [(d' & A' & E') G]. split; [exists d'; rewrite lookup_assoc, (v_heap _ _ V4); split; auto; congruence|].
  assert (OUT : forall j a, written s1 s2 j a -> written s s3 j a) by (intros j a X; apply (written_from _ _ _ _ _ O1); eapply written_to; [exact X|exact O4]).
  assert (LK : forall j x, link s1 j x <-> link s j x) by (intros j x; unfold link, known; rewrite (v_heap _ _ V), (v_clients _ _ V); reflexivity).
  assert (OP : forall j, is_open s1 j = is_open s j) by (intro j; apply view_open; exact V).
  split; [|split; [|split]].
  - intros j x K O. apply OUT. apply (G j) with (e := x); [rewrite OP; exact O|apply LK; exact K].
  - intros j x K O. apply OUT. rewrite <- (view_line _ _ _ _ _ V). apply (G j); [rewrite OP; exact O|apply (view_near _ _ _ _ _ V); exact K].
  - intros TU O. apply OUT. destruct Q as [(_ & _ & -> & ->)|(X & _)]; [|congruence]. rewrite <- (view_line _ _ _ _ _ V). apply (G i); [rewrite OP; exact O|rewrite TU; reflexivity|reflexivity].
  - intros j O X1 X2 NE. apply OUT. apply (G j); auto; [rewrite OP; exact O|intros x K; apply (X1 x); apply LK; exact K|intros x K; apply (X2 x); apply (view_near _ _ _ _ _ V); exact K].
Qed.

(** ---- a user leaves ---- *)
Lemma prints_User : forall h c l s vals, assoc h (s_heap s) = Some c -> prints l s vals -> prints (aUser h :: l) s (FS (match cl_user c with [] => B "~" | u => u end) :: vals).
Proof.
  intros h c l s vals A P v s' H. apply mseq_cons_ok in H. destruct H as (a & s1 & t & H1 & H & ->). unfold aUser in H1. bd H1 as x s2 H2. apply ret_ok in H1. destruct H1 as [-> ->]. unfold Client_User in H2. bd H2 as c1 s3 H3. apply cli_ok in H3. destruct H3 as [H3 ->]. rewrite A in H3. injection H3 as <-.
  apply ret_ok in H2. destruct H2 as [-> ->]. destruct (P _ _ H) as [-> ->]. split; auto. destruct (cl_user c); reflexivity.
Qed.
Lemma prints_Host : forall h c l s vals, assoc h (s_heap s) = Some c -> prints l s vals -> exists x, prints (aHost h :: l) s (FS x :: vals).
Proof.
  intros h c l s vals A P. eexists. intros v s' H. apply mseq_cons_ok in H. destruct H as (a & s1 & t & H1 & H & ->). unfold aHost in H1. bd H1 as x s2 H2. apply ret_ok in H1. destruct H1 as [-> ->]. unfold Client_Hostname in H2. bd H2 as c1 s3 H3. apply cli_ok in H3. destruct H3 as [H3 ->]. rewrite A in H3. injection H3 as <-.
  apply ret_ok in H2. destruct H2 as [-> ->]. destruct (P _ _ H) as [-> ->]. split; reflexivity.
Qed.
Lemma notice_list : forall m f msg l s u s', tied s -> server_settled s ->
  mfor l (fun h => c <- cli h ;; if is_some (cl_conn c) && strchr0 m (cl_modes c) then IRC_WriteStrClient h f [aID h; aS []; aS msg] ;;; ret tt else ret tt) s = Ok u s' ->
  view s s' /\ forall j, (forall g x, assoc g (s_heap s) = Some x -> cl_conn x = Some j -> strchr0 m (cl_modes x) = true -> False) -> written s s' j [].
Proof.
  intros m f msg. induction l as [|h l IH]; intros s u s' T SS H; cbn [mfor] in H.
  - apply ret_ok in H. destruct H as [_ ->]. split; [reflexivity|]. intros j _. apply written_nil. reflexivity.
  - bd H as u1 s1 H1.
    assert (G : view s s1 /\ forall j, (forall g x, assoc g (s_heap s) = Some x -> cl_conn x = Some j -> strchr0 m (cl_modes x) = true -> False) -> written s s1 j []).
    { bd H1 as c s2 H2. apply cli_ok in H2. destruct H2 as [A ->]. destruct (is_some (cl_conn c) && _) eqn:E in H1; [|apply ret_ok in H1; destruct H1 as [_ ->]; split; [reflexivity|intros; apply written_nil; reflexivity]].
      apply andb_true_iff in E. destruct E as [E1 E2]. destruct (cl_conn c) as [i|] eqn:CI; [|discriminate E1]. bd H1 as b s2 H2. apply ret_ok in H1. destruct H1 as [_ ->]. unfold IRC_WriteStrClient in H2.
      destruct (WriteStrClientPrefix_ok _ _ _ _ _ _ _ H2) as (v2 & s3 & x & d & j0 & pf & s4 & M & N & A1 & C1 & G & [W1 W2 W3 W4]). destruct (prints_ID h c _ s _ A (prints_S _ _ _ _ (prints_S _ _ _ _ (prints_nil s))) _ _ M) as [_ ->].
      assert (x = h) by (exact (local_hop0 s h c i x T A CI N)). subst x. rewrite A in A1. injection A1 as <-. rewrite CI in C1. injection C1 as <-. destruct (td_me _ T) as (me & AM & _).
      assert (s4 = s). { unfold Get_Prefix in G. bd G as t s3 G1. apply is_type_ok in G1. destruct G1 as (-> & _). destruct t; [apply Client_ID_ok in G; tauto|]. eapply Mask_settled in G; [destruct G; auto|exact AM|apply SS; rewrite lookup_assoc; exact AM]. } subst s4.
      split; auto. intros j X. destruct b; [|apply written_nil; exact W4]. pose proof (written_one _ _ _ _ W4 j) as W. destruct (Nat.eqb_spec i j) as [<- |]; [|exact W]. exfalso. exact (X _ _ A CI E2). }
    destruct G as [V G]. destruct (IH s1 u s') as [V2 G2]; auto; [eapply view_tied; eauto|intros me; rewrite (v_heap _ _ V); apply SS|]. split; [transitivity s1; auto|]. intros j X. change (@nil bytes) with (@nil bytes ++ []). eapply written_app; [apply G; exact X|]. apply G2. rewrite (v_heap _ _ V). exact X.
Qed.
Lemma notice_quiet : forall m f args vals s u s', tied s -> server_settled s -> prints args s vals -> Log_ServerNotice m f args s = Ok u s' ->
  view s s' /\ forall j, (forall g x, assoc g (s_heap s) = Some x -> cl_conn x = Some j -> strchr0 m (cl_modes x) = true -> False) -> written s s' j [].
Proof.
  intros m f args vals s u s' T SS P H. unfold Log_ServerNotice in H. bd H as msg s1 H1. apply vsn_ok in H1. destruct H1 as (v2 & M & _). destruct (P _ _ M) as [_ ->]. bd H as l s1 H1. unfold Clients in H1. rdgets H1. eapply notice_list; eauto.
Qed.
(** nothing but the lists of channels and members is changed *)
Definition quietly (s s' : state) : Prop := s_out s' = s_out s /\ s_heap s' = s_heap s /\ s_conns s' = s_conns s /\ s_conf s' = s_conf s /\ s_clients s' = s_clients s.
Lemma quietly_refl : forall s, quietly s s.
Proof. intro s. repeat split. Qed.
Lemma quietly_trans : forall a b c, quietly a b -> quietly b c -> quietly a c.
Proof. unfold quietly. intros a b c (A1 & A2 & A3 & A4 & A5) (B1 & B2 & B3 & B4 & B5). repeat split; congruence. Qed.
Lemma remove_quit : forall ch h o r i s b s', Remove_Client REMOVE_QUIT ch h o r i s = Ok b s' -> quietly s s'.
Proof.
  intros ch h o r i s b s' H. unfold Remove_Client in H. bd H as loc s1 H1. unfold Channel_IsLocal in H1. bd H1 as k s2 H2. apply chan_ok in H2. destruct H2 as [_ ->]. apply ret_ok in H1. destruct H1 as [_ ->]. cbv zeta in H. bd H as mem s1 H1. apply IsMemberOf_on in H1. destruct H1 as [-> _].
  destruct mem; cbn [negb] in H; [|apply ret_ok in H; destruct H as [_ ->]; apply quietly_refl]. bd H as name s1 H1. unfold Channel_Name in H1. bd H1 as k1 s2 H2. apply chan_ok in H2. destruct H2 as [_ ->]. apply ret_ok in H1. destruct H1 as [_ ->].
  bd H as u1 s1 H1. apply modify_ok in H1. subst s1. bd H as u2 s1 H1. apply ret_ok in H1. destruct H1 as [_ ->]. bd H as p s1 H1. apply ChHasMode_ok in H1. destruct H1 as [-> _]. bd H as v s1 H1. apply ret_ok in H. destruct H as [_ ->].
  destruct p; [apply ret_ok in H1; destruct H1 as [_ ->]; repeat split|]. bd H1 as n s2 H2. unfold Channel_MemberCount in H2. rdgets H2. unfold whenM in H1. destruct (_ =? _)%Z in H1; [|apply ret_ok in H1; destruct H1 as [_ ->]; repeat split]. unfold Delete_Channel in H1. bd H1 as k2 s2 H2. apply chan_ok in H2. destruct H2 as [_ ->]. apply modify_ok in H1. subst s1. repeat split.
Qed.
Lemma removes_quit : forall h r l s u s', mfor l (fun ch => Remove_Client REMOVE_QUIT ch h h r false ;;; ret tt) s = Ok u s' -> quietly s s'.
Proof.
  intros h r. induction l as [|ch l IH]; intros s u s' H; cbn [mfor] in H.
  - apply ret_ok in H. destruct H as [_ ->]. apply quietly_refl.
  - bd H as u1 s1 H1. bd H1 as b s2 H2. apply ret_ok in H1. destruct H1 as [_ ->]. eapply quietly_trans; [eapply remove_quit; eauto|eapply IH; eauto].
Qed.
Lemma fmt_quit : forall x, fmt (B "QUIT :%s") [FS x] = quit_text x.
Proof. intro x. change (B "QUIT :" ++ x ++ [] = quit_text x). rewrite app_nil_r. reflexivity. Qed.
(** what is sent when a user is destroyed: [ex] is the neighbour behind which it is, if it is not one of ours *)
Lemma leaves_cast : forall u txt fwd s w s' d, tied s -> server_settled s -> NoDup (map fst (s_conns s)) -> NoDup (s_clients s) -> (forall g x, assoc g (s_heap s) = Some x -> g <> u -> In g (s_clients s)) ->
  assoc u (s_heap s) = Some d -> cl_type d = T_USER -> settled d -> fits d -> cl_id d <> [] -> Destroy_UserOrService u txt fwd true s = Ok w s' ->
  s_heap s' = s_heap s /\
  exists ex, (cl_conn d <> None /\ ex = None \/ cl_conn d = None /\ exists nh, next_hop s u nh /\ ex = Some nh) /\
  forall j, is_open s j = true -> (cl_conn d <> None -> ~ watches s j) ->
  (forall g, hit s ex None g j -> written s s' j [relayed d (quit_text (match fwd with Some m => m | None => [] end))]) /\
  (forall e, near s u j e -> written s s' j [line_from s d e (quit_text (if cf_moreprivacy (s_conf s) then [] else match fwd with Some m => m | None => cl_id d end))]) /\
  ((forall g, ~ hit s ex None g j) -> (forall e, ~ near s u j e) -> written s s' j []).
Proof.
  intros u txt fwd s w s' d T SS KC NC LI AU TD S F NI H. unfold Destroy_UserOrService in H. bd H as c s1 H1. apply cli_ok in H1. destruct H1 as [H1 ->]. rewrite AU in H1. injection H1 as <-. bd H as u1 s1 H1.
  assert (CAST : forall exc sa sb v f vals l, view s sa -> prints l sa vals -> fmt (B f) vals = quit_text (match fwd with Some m => m | None => [] end) -> IRC_WriteStrServersPrefix exc u f l sa = Ok v sb -> view s sb /\ forall j, (is_open s j = true -> forall g, hit s exc None g j -> written sa sb j [relayed d (quit_text (match fwd with Some m => m | None => [] end))]) /\ ((is_open s j = true -> forall g, ~ hit s exc None g j) -> written sa sb j [])).
  { intros exc sa sb v f vals l V PR EF HH. unfold IRC_WriteStrServersPrefix, IRC_WriteStrServersPrefixFlag in HH. bd HH as buf s2 H2. apply vsn_ok in H2. destruct H2 as (v2 & M2 & ->). destruct (PR _ _ M2) as [-> ->].
    unfold Servers_CB in HH. bd HH as cs s2 H2. unfold Clients in H2. rdgets H2. assert (A2 : assoc u (s_heap sa) = Some d) by (rewrite (v_heap _ _ V); exact AU). assert (NS : NoDup (s_clients sa)) by (rewrite (v_clients _ _ V); exact NC). destruct (cast_list0 u d (fmt (B f) vals) exc None _ sa v sb (view_tied _ _ V T) NS A2 HH) as (V2 & _ & G). clear NS. split; [transitivity sa; auto|]. intro j. destruct (G j) as [G1 G2]. rewrite (view_open _ _ _ V) in G1, G2. rewrite EF, (fits_type_id _ NI), (v_clients _ _ V) in *. split.
    - intros OP g HT. apply (G1 OP g); [|apply (view_hit _ _ _ _ _ _ V); exact HT]. destruct HT as (e & K & K2 & _). apply (LI _ _ K). intros ->. congruence.
    - intro X. apply G2. intros OP g _ HT. apply (X OP g). apply (view_hit _ _ _ _ _ _ V). exact HT. }
  assert (P1 : view s s1 /\ exists ex, (cl_conn d <> None /\ ex = None \/ cl_conn d = None /\ exists nh, next_hop s u nh /\ ex = Some nh) /\
    forall j, is_open s j = true -> (cl_conn d <> None -> ~ watches s j) -> (forall g, hit s ex None g j -> written s s1 j [relayed d (quit_text (match fwd with Some m => m | None => [] end))]) /\ ((forall g, ~ hit s ex None g j) -> written s s1 j [])).
  { unfold whenM in H1. destruct (cl_conn d) as [i|] eqn:CI.
    - bd H1 as u2 s2 H2. assert (PX : exists vals, prints [aID u; aUser u; aHost u; aS txt] s vals). { destruct (prints_Host u d _ s _ AU (prints_S txt _ _ _ (prints_nil s))) as [x P]. eexists. eapply prints_ID; [exact AU|]. eapply prints_User; [exact AU|exact P]. } destruct PX as [vals P].
      destruct (notice_quiet _ _ _ _ _ _ _ T SS P H2) as [V2 N2].
      assert (Q : view s s1 /\ forall j, (is_open s j = true -> forall g, hit s None None g j -> written s2 s1 j [relayed d (quit_text (match fwd with Some m => m | None => [] end))]) /\ ((is_open s j = true -> forall g, ~ hit s None None g j) -> written s2 s1 j [])).
      { destruct fwd as [m|]; [exact (CAST _ _ _ _ _ _ _ V2 (prints_S m _ _ _ (prints_nil s2)) (fmt_quit m) H1)|exact (CAST None s2 s1 u1 "QUIT :"%string [] [] V2 (prints_nil s2) eq_refl H1)]. }
      destruct Q as [V1 Q]. split; auto. exists None. split; [left; split; auto; discriminate|]. intros j OP NW.
      assert (W2 : written s s2 j []). { apply N2. intros g x K1 K2 K3. apply NW; [discriminate|]. exists g, x. rewrite lookup_assoc. split; auto. split; auto. apply strchr0_In; auto. discriminate. }
      split; [intros g HT; match goal with |- written _ _ _ ?x => change x with ([] ++ x) end; eapply written_app; [exact W2|apply (proj1 (Q j) OP g HT)]|]. intro X. change (@nil bytes) with (@nil bytes ++ []). eapply written_app; [exact W2|]. apply Q. intros _. exact X.
    - bd H1 as nh s2 H2. apply Client_NextHop_next in H2. destruct H2 as [-> N].
      assert (Q : view s s1 /\ forall j, (is_open s j = true -> forall g, hit s (Some nh) None g j -> written s s1 j [relayed d (quit_text (match fwd with Some m => m | None => [] end))]) /\ ((is_open s j = true -> forall g, ~ hit s (Some nh) None g j) -> written s s1 j [])).
      { assert (V2 : view s s) by reflexivity. destruct fwd as [m|]; [exact (CAST _ _ _ _ _ _ _ V2 (prints_S m _ _ _ (prints_nil s)) (fmt_quit m) H1)|exact (CAST (Some nh) s s1 u1 "QUIT :"%string [] [] V2 (prints_nil s) eq_refl H1)]. }
      destruct Q as [V1 Q]. split; auto. exists (Some nh). split; [right; split; auto; exists nh; auto|]. intros j OP _. split; [intros g HT; apply (proj1 (Q j) OP g HT)|]. intro X. apply Q. intros _. exact X. }
  clear H1. destruct P1 as [V1 (ex & EX & P1)]. bd H as u2 s2 H2. unfold Channel_Quit in H2. bd H2 as mp s3 H3. unfold cf in H3. rdgets H3. rewrite (v_conf _ _ V1) in H2. cbv zeta in H2. bd H2 as u3 s3 H3.
  eapply related_near in H3; [|eapply view_tied; eauto|rewrite (view_keys _ _ V1); exact KC|rewrite (v_heap _ _ V1); exact AU|exact S|exact F|exact NI|apply prints_S, prints_nil]. destruct H3 as [V3 P2]. rewrite fmt_quit in P2.
  bd H2 as cl s4 H4. unfold Chans in H4. rdgets H4. apply removes_quit in H2. destruct H2 as (O2 & E2 & C2 & F2 & L2). assert (V13 : view s s3) by (transitivity s1; auto).
  eapply register_quiet in H; [|rewrite E2, (v_heap _ _ V13); exact AU|exact S]. destruct H as [V4 O4]. split; [rewrite (v_heap _ _ V4), E2, (v_heap _ _ V13); reflexivity|]. exists ex. split; auto.
  assert (OUT : forall j a, written s s3 j a -> written s s' j a) by (intros j a X; eapply written_to; [exact X|congruence]).
  intros j OP NW. destruct (P1 j OP NW) as [Q1 Q2]. destruct (P2 j) as [R1 R2]. rewrite (view_open _ _ _ V1) in R1, R2. specialize (R1 OP).
  assert (NN : (forall x, ~ near s u j x) -> written s1 s3 j []) by (intro X; apply R2; intros _ x Y; apply (X x); apply (view_near _ _ _ _ _ V1); exact Y).
  split; [|split].
  - intros g HT. apply OUT. match goal with |- written _ _ _ ?x => rewrite <- (app_nil_r x) end. eapply written_app; [apply (Q1 g HT)|apply NN]. intros x (g' & ch & _ & _ & _ & K4 & K5 & K6). rewrite lookup_assoc in K4. destruct HT as (e & K & K2 & K3 & _). destruct (conn_client0 _ _ _ _ _ _ T K K4 K3 K5). congruence.
  - intros e NE. apply OUT. match goal with |- written _ _ _ ?x => change x with ([] ++ x) end. eapply written_app.
    + apply Q2. intros g (x & K & K2 & K3 & _). destruct NE as (g' & ch & _ & _ & _ & K4 & K5 & K6). rewrite lookup_assoc in K4. destruct (conn_client0 _ _ _ _ _ _ T K K4 K3 K5). congruence.
    + rewrite <- (view_line _ _ _ _ _ V1). apply R1. apply (view_near _ _ _ _ _ V1). exact NE.
  - intros X1 X2. apply OUT. change (@nil bytes) with (@nil bytes ++ []). eapply written_app; [apply Q2; auto|apply NN; auto].
Qed.
Lemma destroy_cast : forall u log fwd s w s' d, tied s -> server_settled s -> NoDup (map fst (s_conns s)) -> NoDup (s_clients s) -> (forall g x, assoc g (s_heap s) = Some x -> In g (s_clients s)) ->
  assoc u (s_heap s) = Some d -> cl_type d = T_USER -> settled d -> fits d -> cl_id d <> [] -> Client_Destroy u log fwd true s = Ok w s' ->
  s_heap s' = adel u (s_heap s) /\
  exists ex, (cl_conn d <> None /\ ex = None \/ cl_conn d = None /\ exists nh, next_hop s u nh /\ ex = Some nh) /\
  forall j, is_open s j = true -> (cl_conn d <> None -> ~ watches s j) ->
  (forall g, hit s ex None g j -> written s s' j [relayed d (quit_text (match fwd with Some m => m | None => [] end))]) /\
  (forall e, near s u j e -> written s s' j [line_from s d e (quit_text (if cf_moreprivacy (s_conf s) then [] else match fwd with Some m => m | None => cl_id d end))]) /\
  ((forall g, ~ hit s ex None g j) -> (forall e, ~ near s u j e) -> written s s' j []).
Proof.
  intros u log fwd s w s' d T SS KC NC LI AU TD S F NI H. unfold Client_Destroy in H. bd H as n s1 H1. rdgets H1. cbn [destroy] in H. bd H as c s1 H1. apply cli_ok in H1. destruct H1 as [H1 ->]. rewrite AU in H1. injection H1 as <-. cbv zeta in H. bd H as me s1 H1. apply cli_ok in H1. destruct H1 as [AM ->].
  bd H as l s1 H1. unfold Clients in H1. rdgets H1. rewrite TD in H. change (ctype_eqb T_USER T_SERVER) with false in H. cbv iota in H. bd H as child s1 H1. apply ret_ok in H1. destruct H1 as [-> ->]. cbv iota in H.
  assert (EX : existsb (heq u) (s_clients s) = true) by (apply existsb_exists; exists u; split; [eapply LI; eauto|apply Nat.eqb_refl]). rewrite EX in H. unfold Destroy_Found in H. bd H as u1 s1 H1. apply modify_ok in H1. subst s1.
  bd H as c s1 H1. apply cli_ok in H1. destruct H1 as [H1 ->]. cbn [s_heap set_s_clients] in H1. rewrite AU in H1. injection H1 as <-. rewrite TD in H. bd H as u2 s2 H2.
  eapply leaves_cast in H2; [|destruct T; split; auto|exact SS|exact KC|cbn [s_clients set_s_clients]; unfold unlink; apply NoDup_filter; exact NC| |exact AU|exact TD|exact S|exact F|exact NI].
  2: { intros g x K NE. cbn [s_heap set_s_clients s_clients] in *. unfold unlink. apply filter_In. split; [eapply LI; eauto|]. unfold heq. destruct (Nat.eqb_spec g u); [contradiction|reflexivity]. }
  destruct H2 as (EH & ex & E & G). cbn [s_heap set_s_clients] in EH. destruct w. apply Free_Client_ok in H. destruct H as (c & _ & ->). split; [cbn [s_heap set_s_heap]; rewrite EH; reflexivity|]. exists ex. split.
  { destruct E as [E|(E1 & nh & E2 & E3)]; [left; exact E|right]. split; auto. exists nh. split; auto. revert E2. apply view_next. reflexivity. }
  assert (OUT : forall j a, written (set_s_clients (unlink u (s_clients s)) s) s2 j a -> written s (set_s_heap (adel u (s_heap s2)) (if_odd (heq u This_Server) O_Self s2)) j a).
  { intros j a X. eapply written_to; [exact X|]. unfold if_odd. destruct (heq u This_Server); reflexivity. }
  intros j OP NW. destruct (G j OP NW) as (G1 & G2 & G3). split; [|split].
  - intros g HT. apply OUT. apply (G1 g HT).
  - intros e NE. apply OUT. apply (G2 e NE).
  - intros X1 X2. apply OUT. apply G3; auto.
Qed.
Lemma write_other : forall i f l vals s b s', prints l s vals -> Conn_WriteStr i f l s = Ok b s' -> view s s' /\ forall j, i <> j -> written s s' j [].
Proof.
  intros i f l vals s b s' P H. destruct (Conn_WriteStr_ok _ _ _ _ _ _ H) as (v & s3 & M & [W1 W2 W3 W4]). destruct (P _ _ M) as [_ ->]. split; auto. intros j NE. destruct b; [|apply written_nil; exact W4]. pose proof (written_one _ _ _ _ W4 j) as W. destruct (Nat.eqb_spec i j); [contradiction|exact W].
Qed.
Lemma close_cast : forall i u log fwd s w s' d, tree s -> server_settled s -> keyed s -> NoDup (s_clients s) -> (forall cn, assoc i (s_conns s) = Some cn -> co_closing cn = false) ->
  assoc u (s_heap s) = Some d -> cl_conn d = Some i -> cl_type d = T_USER -> settled d -> fits d -> cl_id d <> [] -> Conn_Close i log fwd true s = Ok w s' ->
  s_heap s' = adel u (s_heap s) /\ is_open s' i = false /\
  forall j, i <> j -> is_open s j = true -> ~ watches s j ->
  (forall g, hit s None None g j -> written s s' j [relayed d (quit_text (match fwd with Some m => m | None => [] end))]) /\
  (forall e, near s u j e -> written s s' j [line_from s d e (quit_text (if cf_moreprivacy (s_conf s) then [] else match fwd with Some m => m | None => cl_id d end))]) /\
  ((forall g, ~ hit s None None g j) -> (forall e, ~ near s u j e) -> written s s' j []).
Proof.
  intros i u log fwd s w s' d T SS KY NC CL AU CI TD S F NI H. destruct (tr_h2c _ T _ _ _ AU CI) as (cn & AC & CC). unfold Conn_Close in H. bd H as c s1 H1. apply con_ok in H1. destruct H1 as [-> [H1|[H1 _]]]; [|congruence]. rewrite AC in H1. injection H1 as <-. rewrite (CL _ AC) in H.
  bd H as u1 s1 H1. apply assertM_ok in H1. destruct H1 as [OI ->]. bd H as u2 s1 H1. apply upd_con_ok in H1.
  assert (V1 : view s s1) by (subst s1; apply (view_con i (set_co_closing true)); intro; split; reflexivity). assert (O1 : s_out s1 = s_out s) by (subst s1; reflexivity). clear H1. bd H as o s2 H2.
  unfold Conn_GetClient in H2. bd H2 as cn1 s3 H3. apply con_ok in H3. destruct H3 as [-> H3]. apply ret_ok in H2. destruct H2 as [-> ->]. destruct (view_assoc _ _ _ _ V1 AC) as (cn' & K1 & _ & K2). destruct H3 as [H3|[H3 _]]; [|congruence]. rewrite K1 in H3. injection H3 as <-. rewrite K2, CC in H.
  bd H as u3 s2 H2. unfold whenM in H2. cbv iota in H2.
  assert (P1 : view s s2 /\ forall j, i <> j -> written s s2 j []).
  { assert (AU1 : assoc u (s_heap s1) = Some d) by (rewrite (v_heap _ _ V1); exact AU). destruct (tr_me _ (view_tree _ _ V1 T)) as (me & AM & _). bd H2 as b0 s3 H3. apply is_type_ok in H3. destruct H3 as (-> & d1 & A1 & ->). rewrite AU1 in A1. injection A1 as <-. rewrite TD in H2. change (ctype_eqb T_USER T_USER) with true in H2. cbv iota in H2. bd H2 as u4 s3 H3.
    bd H3 as cn1 s4 H4. apply con_ok in H4. destruct H4 as [-> _]. bd H3 as r s4 H4. unfold cf in H4. rdgets H4. bd H3 as b1 s4 H4. apply ret_ok in H3. destruct H3 as [_ ->].
    eapply write_other in H4; [|eapply prints_ID; [exact AM|]; eapply prints_ID; [exact AU1|]; apply prints_S, prints_S, prints_S, prints_nil]. destruct H4 as [V4 W4]. bd H2 as b2 s5 H5. apply ret_ok in H2. destruct H2 as [_ ->].
    assert (AU4 : assoc u (s_heap s4) = Some d) by (rewrite (v_heap _ _ V4); exact AU1). destruct (prints_Host u d _ s4 _ AU4 (prints_S (match fwd with Some m => m | None => B """""" end) _ _ _ (prints_nil s4))) as [xh PH].
    eapply write_other in H5; [|eapply prints_ID; [exact AU4|]; eapply prints_User; [exact AU4|exact PH]]. destruct H5 as [V5 W5]. split; [transitivity s1; auto; transitivity s4; auto|]. intros j NE. apply (written_from _ _ _ _ _ O1). change (@nil bytes) with (@nil bytes ++ []). eapply written_app; [apply W4|apply W5]; auto. }
  clear H2. destruct P1 as [V2 W2]. bd H as u4 s3 H3. apply upd_con_ok in H3. bd H as u5 s4 H4.
  assert (HE : s_heap s3 = s_heap s) by (subst s3; apply (v_heap _ _ V2)). assert (ME : s_members s3 = s_members s) by (subst s3; apply (v_members _ _ V2)). assert (CE : s_clients s3 = s_clients s) by (subst s3; apply (v_clients _ _ V2)). assert (FE : s_conf s3 = s_conf s) by (subst s3; apply (v_conf _ _ V2)). assert (OE : s_out s3 = s_out s2) by (subst s3; reflexivity).
  assert (OP : forall j, i <> j -> is_open s3 j = is_open s j). { intros j NE. rewrite <- (view_open _ _ j V2). subst s3. unfold is_open. cbn [s_conns set_s_conns]. rewrite assoc_aupd. destruct (Nat.eqb_spec i j); [contradiction|reflexivity]. }
  eapply destroy_cast with (d := d) in H4; [| | | | | |rewrite HE; exact AU|exact TD|exact S|exact F|exact NI].
  2: { pose proof (view_tied _ _ V2 (tree_tied _ T)) as T2. subst s3. destruct T2 as [T2a T2b T2c]. split; cbn [s_heap set_s_conns s_conns]; auto. intros h c0 i0 A0 C0. destruct (T2b _ _ _ A0 C0) as (cx & X1 & X2). rewrite assoc_aupd. destruct (Nat.eqb_spec i i0) as [<- |]; [rewrite X1; cbn [option_map]; eexists; split; [reflexivity|exact X2]|exists cx; auto]. }
  2: { intros me. rewrite HE. apply SS. }
  2: { subst s3. cbn [s_conns set_s_conns]. pose proof (aupd_keys _ i (set_co_open false) (s_conns s2)) as AK. pose proof (view_keys _ _ V2) as VK. pose proof (ky_conns _ KY) as KC. unfold connid in *. rewrite AK, VK. exact KC. }
  2: { rewrite CE. exact NC. }
  2: { intros g x. rewrite HE, CE. apply (tr_listed _ T). }
  destruct H4 as (EH & ex & E & G). destruct E as [[_ ->]|[E _]]; [|congruence]. bd H as u6 s5 H5. unfold Conf_UnsetServer in H5. bd H5 as t0 s6 H6. unfold now in H6. rdgets H6. bd H5 as rt s6 H6. unfold cf in H6. rdgets H6. bd H5 as rn s6 H6. rdgets H6. apply modify_ok in H5. bd H as n s6 H6. rdgets H6. bd H as u7 s6 H6. apply modify_ok in H6. bd H as u8 s7 H7. apply assertM_ok in H7. destruct H7 as [_ ->]. apply modify_ok in H.
  split; [subst s' s6 s5; cbn [s_heap set_s_numconn set_s_conns set_s_servers]; rewrite EH, HE; reflexivity|]. split.
  { subst s' s6. unfold is_open. cbn [s_conns set_s_numconn set_s_conns]. rewrite RelGone.assoc_adel, Nat.eqb_refl. reflexivity. }
  assert (OUT : s_out s' = s_out s4) by (subst s' s6 s5; reflexivity).
  assert (W : forall j a, i <> j -> written s3 s4 j a -> written s s' j a) by (intros j a NE X; change a with ([] ++ a); eapply written_app; [apply W2; exact NE|]; apply (written_from _ _ _ _ _ OE); eapply written_to; [exact X|exact OUT]).
  assert (HT : forall g j, hit s3 None None g j <-> hit s None None g j) by (intros g j; unfold hit; rewrite HE; reflexivity).
  assert (NR : forall j e, near s3 u j e <-> near s u j e) by (intros j e; unfold near, is_on; rewrite HE, ME; reflexivity).
  assert (LF : forall e m, line_from s3 d e m = line_from s d e m) by (intros e m; unfold line_from, shown_mask, shown_host, cloak_name; rewrite HE, FE; reflexivity).
  intros j NE OJ NW. destruct (G j) as (G1 & G2 & G3); [rewrite OP; auto|intros _ (g & x & X); apply NW; exists g, x; rewrite HE in X; exact X|]. rewrite FE in G2. split; [|split].
  - intros g X. apply W; auto. apply (G1 g). apply HT. exact X.
  - intros e X. apply W; auto. rewrite <- LF. apply G2. apply NR. exact X.
  - intros X1 X2. apply W; auto. apply G3; [intros g X; apply (X1 g); apply HT; exact X|intros e X; apply (X2 e); apply NR; exact X].
Qed.
Lemma penalty_still : forall h n s u s', IRC_SetPenalty h n s = Ok u s' -> forall j, option_map co_closing (assoc j (s_conns s')) = option_map co_closing (assoc j (s_conns s)).
Proof.
  intros h n s u s' H j. unfold IRC_SetPenalty in H. bd H as c s1 H1. apply cli_ok in H1. destruct H1 as [_ ->].
  destruct (ctype_eqb _ _); [apply ret_ok in H; destruct H as [_ ->]; auto|]. destruct (cl_conn c) as [i|]; [|apply ret_ok in H; destruct H as [_ ->]; auto].
  unfold Conn_SetPenalty in H. bd H as m s1 H1. unfold cf in H1. rdgets H1. bd H as t s1 H1. unfold now in H1. rdgets H1. apply upd_con_ok in H. subst s'. cbn [s_conns set_s_conns]. rewrite assoc_aupd. destruct (Nat.eqb_spec i j) as [<- |]; [|reflexivity]. destruct (assoc i (s_conns s)); reflexivity.
Qed.
(** [run_ordered], and no connection is being closed *)
Lemma run_still : forall s i h c text n args cmd b s', client_of s i h c -> cl_type c <> T_SERVER -> orders s text n args ->
  find (fun c => String.eqb (cm_name c) n) My_Commands = Some cmd -> type_in (cl_type c) (cm_types cmd) = true ->
  cm_min cmd <= List.length args -> (forall m, cm_max cmd = Some m -> List.length args <= m) -> Parse_Request i text s = Ok b s' ->
  exists name s1, (forall j, option_map co_closing (assoc j (s_conns s1)) = option_map co_closing (assoc j (s_conns s))) /\ view s s1 /\ s_out s1 = s_out s /\ same_name name (B n) /\ cm_fun cmd h (mkReq None name args) s1 = Ok b s'.
Proof.
  intros s i h c text n args cmd b s' C T [(name & P & N) SC] F TI MI MA H. unfold Parse_Request in H. cbv zeta in H. bd H as sc s1 H1. unfold cf in H1. rdgets H1.
  assert (NS : cf_scrubctcp (s_conf s) && ScrubCTCP (trim text) = false). { apply andb_false_iff. destruct (cf_scrubctcp (s_conf s)); [right|auto]. destruct (ScrubCTCP (trim text)) eqn:E; auto. exfalso. apply SC; auto. apply scrub_ctcp. exact E. }
  rewrite NS, P in H. bd H as v s1 H1. unfold Validate_Prefix in H1. bd H1 as o s2 H2. destruct (client_of_get _ _ _ _ _ _ C H2) as [-> ->]. clear H2.
  bd H1 as h' s2 H2. apply nonnull_ok in H2. destruct H2 as [E ->]. injection E as <-. bd H1 as t s2 H2. destruct (client_of_type _ _ _ _ _ _ C H2) as [-> ->]. clear H2.
  bd H1 as cn s2 H2. apply con_ok in H2. destruct H2 as [-> _]. cbn [rq_prefix] in H1. destruct (ctype_eqb (cl_type c) T_SERVER) eqn:TS; [apply ctype_eqb_eq in TS; contradiction|]. cbn [andb] in H1. apply ret_ok in H1. destruct H1 as [-> ->].
  apply (Handle_Request_cmd _ _ _ _ (mkReq None name args) _ _ _ _ C N F) in H. unfold run_command in H. rewrite TI in H. cbn [negb] in H. bd H as u s1 H1. unfold argc in H. cbn [rq_args] in H.
  assert (CL : forall j, option_map co_closing (assoc j (s_conns s1)) = option_map co_closing (assoc j (s_conns s))) by (unfold whenM in H1; destruct (negb _) in H1; [eapply penalty_still; exact H1|apply ret_ok in H1; destruct H1 as [_ ->]; reflexivity]).
  assert (V : view s s1 /\ s_out s1 = s_out s). { unfold whenM in H1. destruct (negb _) in H1; [destruct (SetPenalty_view _ _ _ _ _ H1) as (V & _ & O); auto|]. apply ret_ok in H1. destruct H1 as [_ ->]. split; reflexivity. }
  replace ((List.length args <? cm_min cmd) || match cm_max cmd with Some m => m <? List.length args | None => false end) with false in H.
  2: { symmetry. apply orb_false_iff. split; [apply Nat.ltb_ge; exact MI|]. destruct (cm_max cmd) as [m|]; auto. apply Nat.ltb_ge. apply MA. reflexivity. }
  bd H as u2 s2 H2. apply modify_ok in H2. subst s2. exists name, (set_s_wcounter 0 s1). split; [exact CL|]. split; [|tauto]. transitivity s1; [apply V|]. split; reflexivity.
Qed.
Lemma quit_quoted : forall t, List.length t < 500 -> quit_quote t = quoted t.
Proof.
  intros t L. unfold quit_quote, quoted. cbv zeta. rewrite strlcpy_short by (unfold COMMAND_LEN; lia). destruct t as [|c t]; [reflexivity|]. cbn [hd0]. destruct (Ascii.eqb c """"); [reflexivity|].
  assert (E : strlcat (COMMAND_LEN - 1) (B """") (c :: t) = """"%char :: c :: t).
  { unfold strlcat. cbn [List.length B] in *. change (B """") with [""""%char]. cbn [List.length]. unfold COMMAND_LEN. change ((0 <? 513 - 1) && (1 <? 513 - 1 - 1)) with true. cbv iota. destruct (Nat.leb_spec (513 - 1 - 1) (S (List.length t))); [lia|reflexivity]. }
  rewrite E. unfold strlcat. cbn [List.length] in *. unfold COMMAND_LEN. change (B """") with [""""%char]. cbn [List.length]. destruct (Nat.ltb_spec (S (S (List.length t))) (513 - 1)); [|lia]. change (0 <? 513) with true. cbn [andb]. destruct (Nat.leb_spec (513 - S (S (List.length t))) 1); [lia|]. reflexivity.
Qed.
Theorem quit_link : forall s i h c text args u d b s', live s -> undisturbed s -> client_of s i h c -> acts s h c text "QUIT" args u d -> nick_fits d -> settled d -> server_settled s ->
  List.length args <= 1 -> Forall (fun t => List.length t < 500) args -> Parse_Request i text s = Ok b s' ->
  lookup u (s_heap s') = None /\ (cl_type c = T_USER -> is_open s' i = false) /\ (cl_type c = T_SERVER -> is_open s i = true -> written s s' i []) /\
  forall j, i <> j -> is_open s j = true -> (cl_type c = T_USER -> ~ watches s j) ->
  (forall x, link s j x -> written s s' j [relayed d (quit_text (to_peers (farewell c args)))]) /\
  (forall x, near s u j x -> written s s' j [line_from s d x (quit_text (to_users s d (farewell c args)))]) /\
  ((forall x, ~ link s j x) -> (forall x, ~ near s u j x) -> written s s' j []).
Proof.
  intros s i h c text args u d b s' L U C AC NF S SS LA FA H. destruct (actor _ _ _ _ _ _ _ _ _ L U C AC NF) as (T & KY & NC & AH & CI & AU & TD & F & NU & NX).
  assert (TY : cl_type c = T_USER \/ cl_type c = T_SERVER) by (destruct AC as [(X & _)|(X & _)]; auto).
  assert (HR : exists req s1, view s s1 /\ s_out s1 = s_out s /\ rq_args req = args /\ IRC_QUIT h req s1 = Ok b s' /\
    (cl_type c = T_USER /\ u = h /\ d = c /\ (forall j, option_map co_closing (assoc j (s_conns s1)) = option_map co_closing (assoc j (s_conns s))) \/
     cl_type c = T_SERVER /\ exists p, rq_prefix req = Some p /\ the_client s p u d /\ forall o s2, Client_Search p s1 = Ok o s2 -> s2 = s1 /\ o = Some u)).
  { destruct TY as [TU|TS].
    - destruct AC as [(_ & OR & E1 & E2)|(X & _)]; [|congruence]. eapply run_still in H; [|exact C|congruence|exact OR|reflexivity|rewrite TU; reflexivity|cbn; lia|intros m E; cbn in E; first [discriminate E|injection E as <-; lia]].
      destruct H as (name & s1 & CL & V & O1 & SN & H). exists (mkReq None name args), s1. auto 10.
    - eapply run_as in H; [|exact L|exact C|exact AC|exact NF|reflexivity|rewrite TS; reflexivity|cbn; lia|intros m E; cbn in E; first [discriminate E|injection E as <-; lia]].
      destruct H as (req & s1 & V & O1 & SN & EA & H & [(X & _)|Q]); [congruence|]. exists req, s1. auto 10. }
  clear H. destruct HR as (req & s1 & V & O1 & EA & H & Q).
  assert (AH1 : assoc h (s_heap s1) = Some c) by (rewrite (v_heap _ _ V); exact AH). assert (AU1 : assoc u (s_heap s1) = Some d) by (rewrite (v_heap _ _ V); exact AU).
  assert (SS1 : server_settled s1) by (intros me; rewrite (v_heap _ _ V); apply SS). assert (NC1 : NoDup (s_clients s1)) by (rewrite (v_clients _ _ V); exact NC).
  pose proof (view_tree _ _ V T) as T1. pose proof (view_keyed _ _ V KY) as KY1.
  assert (GONE : forall l, lookup u (adel u l) = (None : option client)) by (intro l; rewrite lookup_assoc, RelGone.assoc_adel, Nat.eqb_refl; reflexivity).
  assert (OUT : forall j a, written s1 s' j a -> written s s' j a) by (intros j a; apply written_from; exact O1).
  assert (WT : forall j, watches s1 j <-> watches s j) by (intro j; unfold watches; rewrite (v_heap _ _ V); reflexivity).
  assert (OP : forall j, is_open s1 j = is_open s j) by (intro j; apply view_open; exact V).
  assert (LH : forall j ex, (forall g x, assoc g (s_heap s) = Some x -> cl_conn x = Some j -> ex <> Some g) -> forall x, link s j x -> exists g, hit s1 ex None g j).
  { intros j ex X x (g & [_ K] & K2 & K3). rewrite lookup_assoc in K. exists g. apply (view_hit _ _ _ _ _ _ V). exists x. split; auto. split; auto. split; auto. split; auto. exact (X _ _ K K3). }
  assert (HL : forall j ex g, hit s1 ex None g j -> exists x, link s j x). { intros j ex g X. apply (view_hit _ _ _ _ _ _ V) in X. destruct X as (x & K1 & K2 & K3 & _). exists x, g. split; auto. split; [eapply tr_listed; eauto|rewrite lookup_assoc; exact K1]. }
  unfold IRC_QUIT in H. cbv zeta in H. bd H as srv s2 H2. apply is_type_ok in H2. destruct H2 as (-> & c1 & A1 & ->). rewrite AH1 in A1. injection A1 as <-.
  destruct Q as [(TU & -> & -> & CL)|(TS & p & P & TC & SE)].
  - rewrite TU in H. change (ctype_eqb T_USER T_SERVER) with false in H. cbv iota in H. bd H as o s2 H2. apply Client_Conn_ok in H2. destruct H2 as (-> & c1 & A1 & ->). rewrite AH1 in A1. injection A1 as <-. rewrite CI in H. bd H as i0 s2 H2. apply nonnull_ok in H2. destruct H2 as [E ->]. injection E as <-. bd H as u1 s2 H2. apply ret_ok in H. destruct H as [_ ->].
    assert (EM : (if argc req =? 1 then Some (quit_quote (arg req 0)) else None) = farewell c args).
    { unfold argc, arg, farewell. rewrite EA. destruct args as [|t [|t2 r]]; [reflexivity| |cbn in LA; lia]. cbn [List.length Nat.eqb nth]. inversion FA; subst. rewrite quit_quoted by assumption. rewrite TU. reflexivity. }
    rewrite EM in H2. eapply close_cast with (u := h) (d := c) in H2; [|exact T1|exact SS1|exact KY1|exact NC1| |exact AH1|exact CI|exact TU|exact S|exact F|exact (proj1 NF)].
    2: { intros cn K. destruct (live_wf2 _ L) as [_ [CP _]]. specialize (CL i). rewrite K in CL. destruct (assoc i (s_conns s)) as [cn0|] eqn:K0; [|discriminate CL]. injection CL as ->. destruct (CP _ _ K0). assumption. }
    destruct H2 as (EH & CO & G). split; [rewrite EH; apply GONE|]. split; auto. split; [congruence|]. intros j NE OJ NW. destruct (G j NE) as (G1 & G2 & G3); [rewrite OP; exact OJ|rewrite WT; auto|]. split; [|split].
    + intros x X. apply OUT. destruct (LH j None) with (x := x) as [g HG]; [discriminate|exact X|]. exact (G1 g HG).
    + intros x X. apply OUT. rewrite <- (view_line _ _ _ _ _ V). unfold to_users. rewrite <- (v_conf _ _ V). apply G2. apply (view_near _ _ _ _ _ V). exact X.
    + intros X1 X2. apply OUT. apply G3; [intros g HG; destruct (HL _ _ _ HG) as [x X]; exact (X1 x X)|intros x X; apply (X2 x); apply (view_near _ _ _ _ _ V); exact X].
  - rewrite TS in H. change (ctype_eqb T_SERVER T_SERVER) with true in H. cbv iota in H. unfold with_prefix in H. rewrite P in H. bd H as o s2 H2. destruct (SE _ _ H2) as [-> ->]. clear H2. cbv iota in H.
    assert (NE : u <> h) by (intros ->; rewrite AH in AU; injection AU as <-; congruence). assert (EN : heq u h = false) by (apply Nat.eqb_neq; exact NE). rewrite EN in H. cbn [negb] in H. bd H as u1 s2 H2. apply ret_ok in H. destruct H as [_ ->].
    assert (EM : (if argc req =? 1 then Some (strlcpy COMMAND_LEN (arg req 0)) else None) = farewell c args).
    { unfold argc, arg, farewell. rewrite EA. destruct args as [|t [|t2 r]]; [reflexivity| |cbn in LA; lia]. cbn [List.length Nat.eqb nth]. inversion FA; subst. rewrite strlcpy_short by (unfold COMMAND_LEN; lia). rewrite TS. reflexivity. }
    rewrite EM in H2. eapply destroy_cast with (d := d) in H2; [|apply tree_tied; exact T1|exact SS1|apply (ky_conns _ KY1)|exact NC1|intros g x; apply (tr_listed _ T1)|exact AU1|exact TD|exact S|exact F|exact (proj1 NF)].
    destruct H2 as (EH & ex & E & G). assert (CN : cl_conn d = None). { destruct (cl_conn d) as [k|] eqn:CK; auto. exfalso. apply NE. symmetry. exact (local_hop s u d k h T AU CK NX). }
    destruct E as [[E _]|(_ & nh & N & ->)]; [congruence|]. assert (nh = h). { assert (N1 : next_hop s u nh) by (revert N; apply view_next; rewrite (v_heap _ _ V); reflexivity). exact (next_hop_fun _ _ _ N1 _ NX). } subst nh.
    split; [rewrite EH; apply GONE|]. split; [congruence|].
    assert (GG : forall j, is_open s j = true -> (forall x, link s j x -> i <> j -> written s s2 j [relayed d (quit_text (to_peers (farewell c args)))]) /\
      (forall x, near s u j x -> written s s2 j [line_from s d x (quit_text (to_users s d (farewell c args)))]) /\ ((forall x, ~ link s j x) \/ i = j -> (forall x, ~ near s u j x) -> written s s2 j [])).
    { intros j OJ. destruct (G j) as (G1 & G2 & G3); [rewrite OP; exact OJ|congruence|]. split; [|split].
      - intros x X NJ. apply OUT. destruct (LH j (Some h)) with (x := x) as [g HG]; [|exact X|exact (G1 g HG)]. intros g y K1 K2 K3. injection K3 as <-. rewrite AH in K1. injection K1 as <-. congruence.
      - intros x X. apply OUT. rewrite <- (view_line _ _ _ _ _ V). unfold to_users. rewrite <- (v_conf _ _ V). apply G2. apply (view_near _ _ _ _ _ V). exact X.
      - intros X1 X2. apply OUT. apply G3; [intros g HG|intros x X; apply (X2 x); apply (view_near _ _ _ _ _ V); exact X]. destruct X1 as [X1|X1]; [destruct (HL _ _ _ HG) as [x X]; exact (X1 x X)|]. apply (view_hit _ _ _ _ _ _ V) in HG. destruct HG as (x & K1 & K2 & K3 & K4 & _). subst j. destruct (conn_client _ _ _ _ _ _ T K1 AH K3 CI) as [-> _]. apply K4. reflexivity. }
    split.
    + intros _ OI. apply (GG i OI); auto. intros x (g & ch & _ & _ & _ & K4 & K5 & K6). rewrite lookup_assoc in K4. destruct (conn_client _ _ _ _ _ _ T K4 AH K5 CI) as [_ ->]. contradiction.
    + intros j NJ OJ _. destruct (GG j OJ) as (G1 & G2 & G3). split; [intros x X; exact (G1 x X NJ)|]. split; auto.
Qed.
