(** Messages to channels: who gets them (C16, C17). *)
From Coq Require Import List Ascii String ZArith NArith Bool Lia Arith.
From Coq Require Import Relations RelationClasses.
From Verif Require Import Bytes Strl Match Lists ListsProofs Hash ParseReq State Messages Monad Core Write Info Chan Mode Msg Login Oper Server Dispatch Conn.
From Verif Require Import Rel RelWrite RelInfo RelBase RelChan RelSrv RelInit RelKey RelCmd RelComp WF RelGone Frame Tree Inv1 Inv2 Inv4 Live Spec Observ Unch HandOper HandPrefix HandLine Frames Attrib HandGain HandUser HandChan HandJoin HandKick Output HandDo.
Import ListNotations.
Local Open Scope m_scope.

(** ---- marks ---- *)
Lemma flag_set : forall s i f j, flag_of (set_con i (set_co_flag f) s) j = if Nat.eqb i j then (if is_some (assoc i (s_conns s)) then f else 0) else flag_of s j.
Proof. intros s i f j. unfold flag_of, set_con. cbn [s_conns set_s_conns]. rewrite assoc_aupd. destruct (Nat.eqb_spec i j) as [-> |]; auto. destruct (assoc j (s_conns s)); reflexivity. Qed.
Lemma ClearFlags_ok : forall s u s', Conn_ClearFlags s = Ok u s' -> view s s' /\ s_out s' = s_out s /\ forall j, flag_of s' j = 0.
Proof.
  intros s u s' H. unfold Conn_ClearFlags in H. apply modify_ok in H. subst s'. split; [|split; [reflexivity|]].
  - split; try reflexivity. cbn [s_conns set_s_conns]. unfold ends. rewrite map_map. apply map_ext. intros [j c]. reflexivity.
  - intro j. unfold flag_of. cbn [s_conns set_s_conns]. induction (s_conns s) as [|[k c] l IH]; [reflexivity|]. cbn [map fst snd assoc]. destruct (Nat.eqb _ _); [reflexivity|exact IH].
Qed.
Definition srv_flag (c : client) : nat := if ctype_eqb (cl_type c) T_SERVER then SEND_TO_SERVER else SEND_TO_USER.
(** the connection [j] is marked because of the member [m]; [c] is the client of [j] *)
Definition marks (s : state) (from : handle) (remote : bool) (m : handle) (j : connid) (c : client) : Prop :=
  exists cm x, assoc m (s_heap s) = Some cm /\ (remote = true \/ (cl_conn cm <> None /\ cl_type cm <> T_SERVER)) /\ next_hop s m x /\ x <> from /\ assoc x (s_heap s) = Some c /\ cl_conn c = Some j.
Lemma view_marks : forall s s' from r m j c, view s s' -> (marks s' from r m j c <-> marks s from r m j c).
Proof.
  intros s s' from r m j c V. unfold marks. rewrite (v_heap _ _ V). split; intros (cm & x & A & B1 & N & D1); exists cm, x; split; auto; split; auto; split; auto; eapply view_next; try exact N; [symmetry|]; apply V.
Qed.

Lemma conn_client : forall s x y c d j, tree s -> assoc x (s_heap s) = Some c -> assoc y (s_heap s) = Some d -> cl_conn c = Some j -> cl_conn d = Some j -> x = y /\ c = d.
Proof. intros s x y c d j T A A2 E1 E2. destruct (tr_h2c _ T _ _ _ A E1) as (cn & K1 & K2). destruct (tr_h2c _ T _ _ _ A2 E2) as (cn2 & K3 & K4). rewrite K1 in K3. injection K3 as <-. rewrite K2 in K4. injection K4 as ->. split; auto. congruence. Qed.
Lemma marks_fun : forall s from r m m' j c c', tree s -> marks s from r m j c -> marks s from r m' j c' -> c = c'.
Proof. intros s from r m m' j c c' T (cm & x & _ & _ & _ & _ & A & E) (cm' & x' & _ & _ & _ & _ & A' & E'). eapply conn_client; eauto. Qed.
(** what [Mark_Members] does for one member *)
Lemma mark_one : forall from r m s u s', tree s ->
  (c <- cli m ;;
    if negb r && ((match cl_conn c with None => true | Some _ => false end) || ctype_eqb (cl_type c) T_SERVER) then ret tt
    else nh <- Client_NextHop m ;; if heq nh from then ret tt else o <- Client_Conn nh ;; i <- nonnull o ;; b <- is_type nh T_SERVER ;; Conn_SetFlag i (if b then SEND_TO_SERVER else SEND_TO_USER)) s = Ok u s' ->
  view s s' /\ s_out s' = s_out s /\
  ((forall j, flag_of s' j = flag_of s j) /\ (forall j c, ~ marks s from r m j c) \/ exists j c, marks s from r m j c /\ forall k, flag_of s' k = if Nat.eqb j k then srv_flag c else flag_of s k).
Proof.
  intros from r m s u s' T H. bd H as c s1 H1. apply cli_ok in H1. destruct H1 as [A ->]. destruct (negb r && _) eqn:R in H.
  { apply ret_ok in H. destruct H as [_ ->]. split; [reflexivity|]. split; auto. left. split; auto. intros j d (cm & x & A1 & [-> |[K1 K2]] & _); [discriminate R|]. rewrite A in A1. injection A1 as <-. apply andb_true_iff in R. destruct R as [_ R]. apply orb_true_iff in R. destruct R as [R|R]; [destruct (cl_conn c); congruence|apply ctype_eqb_eq in R; contradiction]. }
  assert (R' : r = true \/ (cl_conn c <> None /\ cl_type c <> T_SERVER)). { apply andb_false_iff in R. destruct R as [R|R]; [left; destruct r; auto; discriminate|right]. apply orb_false_iff in R. destruct R as [R1 R2]. split; [destruct (cl_conn c); [discriminate|discriminate R1]|]. intro E. rewrite E in R2. discriminate R2. }
  bd H as nh s1 H1. apply Client_NextHop_next in H1. destruct H1 as [-> N]. destruct (heq nh from) eqn:E in H.
  { apply ret_ok in H. destruct H as [_ ->]. split; [reflexivity|]. split; auto. left. split; auto. intros j d (cm & x & A1 & _ & N2 & NE & _). apply Nat.eqb_eq in E. rewrite (next_hop_fun _ _ _ N _ N2) in E. contradiction. }
  bd H as o s1 H1. unfold Client_Conn in H1. bd H1 as c1 s2 H2. apply cli_ok in H2. destruct H2 as [A1 ->]. apply ret_ok in H1. destruct H1 as [-> ->]. bd H as i s1 H1. apply nonnull_ok in H1. destruct H1 as [EC ->].
  bd H as b s1 H1. apply is_type_ok in H1. destruct H1 as (-> & c2 & A2 & ->). rewrite A1 in A2. injection A2 as <-. unfold Conn_SetFlag in H. apply upd_con_ok in H. subst s'.
  split; [apply (view_con i (set_co_flag _)); intro; split; reflexivity|]. split; [reflexivity|]. right. exists i, c1. split.
  { exists c, nh. repeat (split; auto). apply Nat.eqb_neq. exact E. }
  intro k. match goal with |- flag_of ?x _ = _ => change x with (set_con i (set_co_flag (srv_flag c1)) s) end. rewrite flag_set. destruct (tr_h2c _ T _ _ _ A1 EC) as (cn & K1 & _). rewrite K1. reflexivity.
Qed.
Lemma mark_list : forall from r l s u s', tree s ->
  mfor l (fun m => c <- cli m ;;
    if negb r && ((match cl_conn c with None => true | Some _ => false end) || ctype_eqb (cl_type c) T_SERVER) then ret tt
    else nh <- Client_NextHop m ;; if heq nh from then ret tt else o <- Client_Conn nh ;; i <- nonnull o ;; b <- is_type nh T_SERVER ;; Conn_SetFlag i (if b then SEND_TO_SERVER else SEND_TO_USER)) s = Ok u s' ->
  view s s' /\ s_out s' = s_out s /\
  forall j, (flag_of s' j = flag_of s j /\ forall m c, In m l -> ~ marks s from r m j c) \/ exists m c, In m l /\ marks s from r m j c /\ flag_of s' j = srv_flag c.
Proof.
  induction l as [|m l IH]; intros s u s' T H; cbn [mfor] in H.
  - apply ret_ok in H. destruct H as [_ ->]. split; [reflexivity|]. split; [reflexivity|]. intro j. left. split; auto.
  - bd H as u1 s1 H1. destruct (mark_one _ _ _ _ _ _ T H1) as (V & O & F). destruct (IH _ _ _ (view_tree _ _ V T) H) as (V2 & O2 & F2). split; [etransitivity; eauto|]. split; [congruence|].
    intro j. destruct (F2 j) as [[F3 F4]|(m' & c & I & K & F3)].
    + destruct F as [[F5 F6]|(j0 & c & K & F5)].
      * left. split; [rewrite F3; apply F5|]. intros m' c [<- |I]; [apply F6|]. intro Q. apply (F4 m' c I). apply (view_marks _ _ _ _ _ _ _ V). exact Q.
      * destruct (Nat.eq_dec j0 j) as [-> |NE]; [right; exists m, c; split; [left; auto|]; split; auto; rewrite F3, F5, Nat.eqb_refl; reflexivity|].
        left. rewrite F3, F5. destruct (Nat.eqb_spec j0 j); [contradiction|]. split; auto. intros m' c' [<- |I] Q; [|apply (F4 m' c' I); apply (view_marks _ _ _ _ _ _ _ V); exact Q].
        destruct K as (cm & x & _ & _ & N1 & _ & A1 & E1). destruct Q as (cm' & x' & _ & _ & N2 & _ & A2 & E2). rewrite (next_hop_fun _ _ _ N1 _ N2) in A1. rewrite A1 in A2. injection A2 as <-. rewrite E1 in E2. injection E2 as ->. contradiction.
    + right. exists m', c. split; [right; auto|]. split; [apply (view_marks _ _ _ _ _ _ _ V); exact K|exact F3].
Qed.
(** ---- the marked connections get the line ---- *)
Definition line_for (s : state) (f : client) (t : bytes) (j : connid) : list (connid * bytes) :=
  if Nat.eqb (flag_of s j) SEND_TO_SERVER then [(j, wire (":"%char :: id_of f ++ " "%char :: t))]
  else if Nat.eqb (flag_of s j) SEND_TO_USER then [(j, wire (":"%char :: shown_mask s f ++ " "%char :: t))] else [].
Lemma view_shown : forall s s' f, view s s' -> shown_mask s' f = shown_mask s f.
Proof. intros s s' f V. unfold shown_mask, shown_host, cloak_name. rewrite (v_conf _ _ V), (v_heap _ _ V). reflexivity. Qed.
Lemma wire_pre : forall p t x, fmt (B ":%s %s") [FS p; FS (firstn 999 (cut0 x))] = t -> wire t = wire (":"%char :: p ++ " "%char :: x).
Proof.
  intros p t x <-. change (wire (":"%char :: p ++ " "%char :: (firstn 999 (cut0 x) ++ [])) = wire (":"%char :: p ++ " "%char :: x)). rewrite app_nil_r.
  replace (":"%char :: p ++ " "%char :: firstn 999 (cut0 x)) with ((":"%char :: p ++ [" "%char]) ++ firstn 999 (cut0 x)) by (rewrite app_comm_cons, <- app_assoc; reflexivity). rewrite wire_cut, app_comm_cons, <- app_assoc. reflexivity.
Qed.
Lemma send_list : forall pref f t l s u s', assoc pref (s_heap s) = Some f -> settled f -> fits f -> (forall i, In i l -> is_open s i = true) ->
  mfor l (fun i => c <- con i ;;
    if Nat.eqb (co_flag c) SEND_TO_SERVER then Conn_WriteStr i ":%s %s" [aID pref; aS (firstn 999 (cut0 t))] ;;; ret tt
    else if Nat.eqb (co_flag c) SEND_TO_USER then Conn_WriteStr i ":%s %s" [aMaskC pref; aS (firstn 999 (cut0 t))] ;;; ret tt else ret tt) s = Ok u s' ->
  view s s' /\ s_out s' = rev (flat_map (line_for s f t) l) ++ s_out s.
Proof.
  induction l as [|i l IH]; intros s u s' A S F OP H; cbn [mfor] in H.
  - apply ret_ok in H. destruct H as [_ ->]. split; reflexivity.
  - bd H as u1 s1 H1.
    assert (G : view s s1 /\ (forall j, flag_of s1 j = flag_of s j) /\ s_out s1 = line_for s f t i ++ s_out s).
    { bd H1 as c s2 H2. apply con_ok in H2. destruct H2 as [-> AC]. assert (AI : assoc i (s_conns s) = Some c). { pose proof (OP i (or_introl eq_refl)) as Q. unfold is_open in Q. destruct AC as [AC|[AC _]]; auto. rewrite AC in Q. discriminate Q. }
      assert (FL : flag_of s i = co_flag c) by (unfold flag_of; rewrite AI; reflexivity). unfold line_for. rewrite FL. destruct (Nat.eqb (co_flag c) SEND_TO_SERVER).
      - bd H1 as b s2 H2. apply ret_ok in H1. destruct H1 as [_ ->]. destruct (Conn_WriteStr_ok _ _ _ _ _ _ H2) as (vals & s3 & M & [W1 W2 W3 W4]). apply mseq_cons_ok in M. destruct M as (a & s4 & v & M1 & M & ->). apply aID_ok in M1. destruct M1 as [-> (f' & A' & ->)].
        rewrite A in A'. injection A' as <-. apply mseq_cons_ok in M. destruct M as (a & s4 & v2 & M1 & M & ->). apply aS_ok in M1. destruct M1 as [-> ->]. apply mseq_nil_ok in M. destruct M as [-> ->]. rewrite (OP i (or_introl eq_refl)) in W3. subst b. rewrite (wire_pre _ _ _ eq_refl) in W4. auto.
      - destruct (Nat.eqb (co_flag c) SEND_TO_USER); [|apply ret_ok in H1; destruct H1 as [_ ->]; split; [reflexivity|auto]].
        bd H1 as b s2 H2. apply ret_ok in H1. destruct H1 as [_ ->]. destruct (Conn_WriteStr_ok _ _ _ _ _ _ H2) as (vals & s3 & M & [W1 W2 W3 W4]). apply mseq_cons_ok in M. destruct M as (a & s4 & v & M1 & M & ->). unfold aMaskC in M1. bd M1 as mk s5 M2. apply ret_ok in M1. destruct M1 as [-> ->].
        destruct (Mask_settled _ _ _ _ _ A S M2) as [-> ->]. rewrite (fi_type _ F) in *. change (ctype_eqb T_USER T_SERVER) with false in *. cbn [andb] in *. assert (EM : mask_of f (shown_host s f) = shown_mask s f) by (apply fits_mask; auto using shown_len). rewrite EM in *.
        apply mseq_cons_ok in M. destruct M as (a & s4 & v2 & M1 & M & ->). apply aS_ok in M1. destruct M1 as [-> ->]. apply mseq_nil_ok in M. destruct M as [-> ->]. rewrite (OP i (or_introl eq_refl)) in W3. subst b. rewrite (wire_pre _ _ _ eq_refl) in W4. auto. }
    destruct G as (V & FL & O). destruct (IH s1 u s') as [V2 O2]; auto; [rewrite (v_heap _ _ V); exact A|intros j J; rewrite (view_open _ _ _ V); apply OP; right; exact J|].
    split; [etransitivity; eauto|]. rewrite O2, O, app_assoc. f_equal. cbn [flat_map]. rewrite rev_app_distr. f_equal.
    + f_equal. apply flat_map_ext. intro j. unfold line_for. rewrite FL, (view_shown _ _ _ V). reflexivity.
    + unfold line_for. destruct (Nat.eqb _ _); [reflexivity|]. destruct (Nat.eqb _ _); reflexivity.
Qed.
(** the lines written by [send_list], per connection *)
Lemma flat_filter : forall (g : connid -> list (connid * bytes)) l j, (forall i p, In p (g i) -> fst p = i) -> NoDup l ->
  filter (fun p => (fst p =? j)%nat) (rev (flat_map g l)) = if in_dec Nat.eq_dec j l then rev (g j) else [].
Proof.
  unfold connid. intros g l j G N. assert (K : forall i, filter (fun p => (fst p =? j)%nat) (g i) = if (i =? j)%nat then g i else []).
  { intro i. pose proof (G i) as Gi. revert Gi. generalize (g i) as q. intros q Gi. induction q as [|p q IH]; [destruct (i =? j)%nat; auto|]. cbn [filter]. pose proof (Gi p (or_introl eq_refl)) as E. rewrite IH by (intros; apply Gi; right; auto). destruct p as [p0 p1]. cbn [fst] in *. subst p0. destruct (i =? j)%nat; auto. }
  assert (FR : forall (f : nat * bytes -> bool) q, filter f (rev q) = rev (filter f q)).
  { intros f q. induction q as [|p q IH]; auto. cbn [rev filter]. rewrite filter_app, IH. cbn [filter]. destruct (f p); [reflexivity|apply app_nil_r]. }
  rewrite FR. 
  assert (E : filter (fun p => (fst p =? j)%nat) (flat_map g l) = if in_dec Nat.eq_dec j l then g j else []).
  { induction l as [|i l IH]; [reflexivity|]. inversion N as [|a b N1 N2]; subst. cbn [flat_map]. rewrite filter_app, K, (IH N2). destruct (in_dec Nat.eq_dec j (i :: l)) as [I|I], (in_dec Nat.eq_dec j l) as [I2|I2], (Nat.eqb_spec i j) as [E|E]; subst; auto using app_nil_r; try contradiction.
    - destruct I; [contradiction|contradiction].
    - destruct I. right; auto.
    - destruct I. left; auto. }
  rewrite E. destruct (in_dec _ _ _); reflexivity.
Qed.
Lemma member_on : forall s m ch, In m (map mb_client (filter (fun m => Nat.eqb (mb_chan m) ch) (s_members s))) <-> is_on s m ch.
Proof.
  intros s m ch. unfold is_on. rewrite in_map_iff. split; intros (x & E & I).
  - apply filter_In in I. destruct I as [I E2]. apply Nat.eqb_eq in E2. exists x. auto.
  - destruct I as [I1 I2]. exists x. split; auto. apply filter_In. split; auto. apply Nat.eqb_eq. auto.
Qed.
Lemma fits_type_id : forall p, cl_id p <> [] -> id_of p = cl_id p.
Proof. intros p N. unfold id_of. destruct (cl_id p); congruence. Qed.
Lemma view_keys : forall s s', view s s' -> map fst (s_conns s') = map fst (s_conns s).
Proof. intros s s' V. pose proof (v_ends _ _ V) as E. unfold ends in E. apply (f_equal (map fst)) in E. rewrite !map_map in E. cbn [fst] in E. exact E. Qed.
(** the arguments of a message have these values, and nothing is changed to get them *)
Definition prints (l : list marg) (s : state) (vals : list farg) : Prop := forall v s', mseq l s = Ok v s' -> v = vals /\ s' = s.
Lemma chan_prefix : forall from ch pref r f l vals s u s' p, tree s -> NoDup (map fst (s_conns s)) -> assoc pref (s_heap s) = Some p -> settled p -> fits p -> cl_id p <> [] ->
  prints l s vals -> IRC_WriteStrChannelPrefix from ch pref r f l s = Ok u s' ->
  view s s' /\ forall j, (is_open s j = true -> forall m c, is_on s m ch -> marks s from r m j c -> written s s' j [line_from s p c (fmt (B f) vals)]) /\
    ((is_open s j = true -> forall m c, is_on s m ch -> ~ marks s from r m j c) -> written s s' j []).
Proof.
  intros from ch pref r f l vals s u s' p T W A S F NI M H. unfold IRC_WriteStrChannelPrefix in H. bd H as buf s1 H1. apply vsn_ok in H1. destruct H1 as (v2 & M2 & ->). destruct (M _ _ M2) as [-> ->].
  bd H as u1 s1 H1. apply ClearFlags_ok in H1. destruct H1 as (V1 & O1 & F1). bd H as u2 s2 H2. unfold Mark_Members in H2. bd H2 as ms s3 H3. unfold Members in H3. rdgets H3.
  destruct (mark_list _ _ _ _ _ _ (view_tree _ _ V1 T) H2) as (V2 & O2 & F2). rewrite (v_members _ _ V1) in *. assert (V12 : view s s2) by (transitivity s1; auto).
  unfold Send_Marked_Connections in H. bd H as cs s3 H3. unfold Conn_All in H3. rdgets H3. set (L := map fst (filter (fun p => co_open (snd p)) (s_conns s2))) in *.
  assert (NK : NoDup (map fst (s_conns s2))) by (rewrite (view_keys _ _ V12); exact W).
  assert (IL : forall i, In i L <-> is_open s2 i = true).
  { intro i. unfold L, is_open. rewrite in_map_iff. split.
    - intros ([k c] & <- & I). apply filter_In in I. destruct I as [I E]. cbn [fst snd] in *. apply In_assoc in I; auto. rewrite I. exact E.
    - destruct (assoc i (s_conns s2)) as [c|] eqn:E; [|discriminate]. intro O. exists (i, c). split; auto. apply filter_In. split; auto. apply assoc_In. exact E. }
  assert (NL : NoDup L). { unfold L. clear - NK. induction (s_conns s2) as [|[k c] q IH]; [constructor|]. cbn [map] in NK. inversion NK as [|a b N1 N2]; subst. cbn [filter snd]. destruct (co_open c); auto. cbn [map fst]. constructor; auto. intro I. apply N1. apply in_map_iff in I. destruct I as (x & E & I). apply filter_In in I. rewrite <- E. apply in_map. apply I. }
  assert (A2 : assoc pref (s_heap s2) = Some p) by (rewrite (v_heap _ _ V12); exact A). destruct (send_list pref p (fmt (B f) vals) L s2 u s' A2 S F) as [V3 O3]; [intros i I; apply IL; exact I|exact H|].
  assert (V : view s s') by (transitivity s2; auto). split; auto. intro j.
  assert (WR : written s s' j (if in_dec Nat.eq_dec j L then map snd (line_for s2 p (fmt (B f) vals) j) else [])).
  { exists (rev (flat_map (line_for s2 p (fmt (B f) vals)) L)). split; [rewrite O3, O2, O1; reflexivity|]. rewrite flat_filter; auto.
    - destruct (in_dec _ _ _); auto. rewrite map_rev, rev_involutive. reflexivity.
    - intros i q. unfold line_for. destruct (_ =? _); [intros [<- |[]]; reflexivity|]. destruct (_ =? _); [intros [<- |[]]; reflexivity|intros []]. }
  assert (VO : is_open s2 j = is_open s j) by (apply view_open; auto). assert (MK : forall m c, marks s1 from r m j c <-> marks s from r m j c) by (intros; apply view_marks; auto).
  assert (FL : forall m c, is_on s m ch -> marks s from r m j c -> flag_of s2 j = srv_flag c).
  { intros m c I K. destruct (F2 j) as [[F3 F4]|(m' & c' & I' & K' & F3)]; [exfalso; apply (F4 m c); [apply member_on; exact I|apply MK; exact K]|]. rewrite F3. f_equal. apply MK in K'. eapply marks_fun; eauto. }
  destruct (in_dec Nat.eq_dec j L) as [J|J].
  - apply IL in J. rewrite VO in J. split.
    + intros _ m c I K. specialize (FL m c I K). unfold line_for in WR. rewrite FL in WR. unfold line_from. rewrite (view_shown _ _ _ V12), (fits_type_id _ NI) in WR. unfold srv_flag in WR. destruct (ctype_eqb (cl_type c) T_SERVER); exact WR.
    + intro K. specialize (K J). destruct (F2 j) as [[F3 F4]|(m' & c' & I' & K' & F3)]; [|exfalso; apply (K m' c'); [apply member_on; exact I'|apply MK; exact K']].
      unfold line_for in WR. rewrite F3, F1 in WR. exact WR.
  - split; [|intros _; exact WR]. intros O. destruct J. apply IL. congruence.
Qed.
(** ---- may the client speak? ---- *)
Record keyed (s : state) : Prop := mk_keyed { ky_chans : NoDup (map fst (s_chans s)); ky_members : NoDup (map mpair (s_members s)); ky_conns : NoDup (map fst (s_conns s)) }.
Lemma wf_keyed : forall s, wf s -> keyed s.
Proof. intros s W. split; [apply (wf_chans _ W)|apply (wf_members _ W)|apply (wf_conns _ W)]. Qed.
Lemma view_keyed : forall s s', view s s' -> keyed s -> keyed s'.
Proof. intros s s' V []. split; [rewrite (v_chans _ _ V)|rewrite (v_members _ _ V)|rewrite (view_keys _ _ V)]; auto. Qed.
Lemma mb_one : forall s m m', keyed s -> In m (s_members s) -> In m' (s_members s) -> mpair m = mpair m' -> m = m'.
Proof.
  intros s m m' [_ N _]. induction (s_members s) as [|y l IH]; [intros []|]. cbn [map] in N. inversion N as [|a b N1 N2]; subst. intros [<- |I] [<- |I'] E; auto; exfalso; apply N1; [rewrite E|rewrite <- E]; apply in_map; auto.
Qed.
Lemma aupd_same : forall A k (f : A -> A) x l, NoDup (map fst l) -> assoc k l = Some x -> f x = x -> aupd k f l = l.
Proof.
  intros A k f x l N E EF. assert (K : forall p, In p l -> fst p = k -> snd p = x). { intros [a y] I Q. cbn in *. subst a. apply In_assoc in I; auto. congruence. }
  clear N E. unfold aupd. induction l as [|[a y] l IH]; [reflexivity|]. cbn [map fst snd]. rewrite IH by (intros; apply K; auto; right; auto). destruct (Nat.eqb_spec k a) as [-> |]; [|reflexivity]. pose proof (K (a, y) (or_introl eq_refl) eq_refl) as Q. cbn in Q. subst y. rewrite EF. reflexivity.
Qed.
Lemma check_view : forall (get : channel -> mlist) (put : mlist -> channel -> channel) ch h s r s' k c, put (get k) k = k -> noonce (get k) ->
  NoDup (map fst (s_chans s)) -> assoc ch (s_chans s) = Some k -> assoc h (s_heap s) = Some c -> fits c -> settled c ->
  Check_List (c <- chan ch ;; ret (get c)) (fun l => upd_chan ch (put l)) h s = Ok r s' -> view s s' /\ s_out s' = s_out s /\ (is_some r = true <-> listed s c (get k)).
Proof.
  intros get put ch h s r s' k c K NO N A AC F S H. unfold Check_List in H. bd H as l s1 H1. bd H1 as k1 s2 H2. apply chan_ok in H2. destruct H2 as [H2 ->]. rewrite A in H2. injection H2 as <-. apply ret_ok in H1. destruct H1 as [-> ->].
  destruct (get k) as [|e l0] eqn:E.
  - apply ret_ok in H. destruct H as [-> ->]. split; [reflexivity|]. split; [reflexivity|]. split; [discriminate|]. intros (x & [] & _).
  - bd H as mc s1 H1. destruct (Mask_settled _ _ _ _ _ AC S H1) as [-> _]. destruct (MaskCloaked_shown _ _ _ _ _ AC F H1) as [_ ->]. bd H as m s2 H2. destruct (Mask_full _ _ _ _ _ AC F H2) as [-> ->].
    destruct (Lists_CheckReason (e :: l0) (shown_mask s c) (full_mask c)) as [r1 l'] eqn:R. bd H as u s2 H3. apply ret_ok in H. destruct H as [-> ->].
    destruct (CheckReason_listed _ _ _ _ _ R) as [C1 C2]. pose proof (noonce_check (e :: l0) (shown_mask s c) (full_mask c) NO) as X. rewrite R in X. cbn [snd] in X. subst l'.
    apply upd_chan_ok in H3. destruct H3 as (k2 & A2 & ->). rewrite A in A2. injection A2 as <-. split; [|split; [reflexivity|exact C1]]. split; try reflexivity. unfold set_chan. cbn [s_chans set_s_chans]. eapply aupd_same; eauto.
Qed.
Lemma can_send_ok : forall ch h s b s' k c, keyed s -> noonce (ch_bans k) -> noonce (ch_excepts k) -> assoc ch (s_chans s) = Some k -> assoc h (s_heap s) = Some c -> fits c -> settled c -> h <> This_Server ->
  Can_Send_To_Channel ch h s = Ok b s' -> view s s' /\ s_out s' = s_out s /\ (b = true <-> may_speak s h c ch k).
Proof.
  intros ch h s b s' k c W NB NE A AC F S NM H. pose proof (ky_chans _ W) as N. unfold Can_Send_To_Channel in H. destruct (heq This_Server h) eqn:E; [apply Nat.eqb_eq in E; congruence|].
  bd H as o s1 H1. apply Get_Cl2Chan_ok in H1. destruct H1 as [-> EO]. cbv zeta in H. bd H as k1 s1 H1. apply chan_ok in H1. destruct H1 as [H1 ->]. rewrite A in H1. injection H1 as <-. bd H as c1 s1 H1. apply cli_ok in H1. destruct H1 as [H1 ->]. rewrite AC in H1. injection H1 as <-.
  assert (ON : is_some o = true <-> is_on s h ch).
  { subst o. split.
    - destruct (find _ _) as [m|] eqn:FM; [|discriminate]. apply find_some in FM. destruct FM as [I Q]. apply is_mb_pair in Q. unfold mpair in Q. injection Q as Q1 Q2. intros _. exists m. auto.
    - intros (m & I & Q1 & Q2). destruct (find _ _) as [m'|] eqn:FM; auto. pose proof (find_none _ _ FM _ I) as Q. cbv beta in Q. unfold is_mb, heq in Q. rewrite Q1, Q2, !Nat.eqb_refl in Q. discriminate Q. }
  set (priv := match o with Some m => _ | None => false end) in H.
  assert (PV : priv = true <-> voiced s h ch).
  { unfold priv, voiced. split.
    - destruct o as [m|]; [|discriminate]. symmetry in EO. apply find_some in EO. destruct EO as [I Q]. apply is_mb_pair in Q. unfold mpair in Q. injection Q as Q1 Q2. intro P. rewrite !orb_true_iff, !memb_In in P. 
      assert (X : exists x, In x (B "vhoaq") /\ In x (mb_modes m)). { cbn. destruct P as [[[[P|P]|P]|P]|P]; eexists; (split; [|exact P]); auto 8. } destruct X as (x & X1 & X2). exists x. split; auto. exists m. auto.
    - intros (x & X & m & I & Q1 & Q2 & Q3). assert (EM : o = Some m). { destruct o as [m'|]; [|exfalso; assert (Q : is_some (@None member) = true) by (apply ON; exists m; auto); discriminate Q]. symmetry in EO. apply find_some in EO. destruct EO as [I' Q]. apply is_mb_pair in Q. unfold mpair in Q. injection Q as Q4 Q5. f_equal. apply (mb_one s); auto. unfold mpair. congruence. }
      rewrite EM. rewrite !orb_true_iff, !memb_In. cbn in X. destruct X as [<-|[<-|[<-|[<-|[<-|[]]]]]]; auto 8. }
  clearbody priv. destruct (memb "n" (ch_modes k) && negb (is_some o)) eqn:EN.
  { apply ret_ok in H. destruct H as [-> ->]. split; [reflexivity|]. split; auto. split; [discriminate|]. intros (X & _). apply andb_true_iff in EN. destruct EN as [EN EN2]. apply memb_In in EN. apply X, ON in EN. rewrite EN in EN2. discriminate. }
  assert (P1 : In "n"%char (ch_modes k) -> is_on s h ch). { intro X. apply ON. apply memb_In in X. rewrite X in EN. destruct (is_some o); auto. }
  destruct (memb "M" (ch_modes k) && negb (memb "R" (cl_modes c)) && negb (memb "o" (cl_modes c))) eqn:EM.
  { apply ret_ok in H. destruct H as [-> ->]. split; [reflexivity|]. split; auto. split; [discriminate|]. intros (_ & X & _). rewrite !andb_true_iff, !negb_true_iff in EM. destruct EM as [[E1 E2] E3]. apply memb_In in E1. destruct (X E1) as [Y|Y]; apply memb_In in Y; congruence. }
  assert (P2 : In "M"%char (ch_modes k) -> In "R"%char (cl_modes c) \/ In "o"%char (cl_modes c)). { intro X. apply memb_In in X. rewrite X in EM. destruct (memb "R" (cl_modes c)) eqn:Y; [left; apply memb_In; auto|]. destruct (memb "o" (cl_modes c)) eqn:Y2; [right; apply memb_In; auto|]. discriminate EM. }
  destruct priv.
  { apply ret_ok in H. destruct H as [-> ->]. split; [reflexivity|]. split; auto. split; auto. intros _. split; auto. split; auto. left. apply PV; auto. }
  assert (P3 : ~ voiced s h ch) by (intro X; apply PV in X; discriminate X).
  destruct (memb "m" (ch_modes k)) eqn:Em.
  { apply ret_ok in H. destruct H as [-> ->]. split; [reflexivity|]. split; auto. split; [discriminate|]. intros (_ & _ & [X|[X _]]); [contradiction|]. destruct X. apply memb_In; auto. }
  assert (P4 : ~ In "m"%char (ch_modes k)) by (rewrite <- memb_In; congruence).
  bd H as e s1 H1. unfold Check_Excepts in H1. bd H1 as r s2 H2. apply ret_ok in H1. destruct H1 as [-> ->]. eapply (check_view ch_excepts set_ch_excepts _ _ _ _ _ k c) in H2; eauto; [|destruct k; reflexivity]. destruct H2 as (V & O & L).
  destruct (is_some r).
  { apply ret_ok in H. destruct H as [-> ->]. split; auto. split; auto. split; auto. intros _. split; auto. split; auto. right. split; auto. intros _. apply L; auto. }
  unfold notM in H. bd H as q s4 H2. apply ret_ok in H. destruct H as [-> ->]. unfold Check_Bans in H2. bd H2 as r2 s3 H3. apply ret_ok in H2. destruct H2 as [-> ->]. eapply (check_view ch_bans set_ch_bans _ _ _ _ _ k c) in H3; [|destruct k; reflexivity|exact NB|rewrite (v_chans _ _ V); auto|rewrite (v_chans _ _ V); eauto|rewrite (v_heap _ _ V); eauto|auto|auto].
  destruct H3 as (V2 & O2 & L2). split; [etransitivity; eauto|]. split; [congruence|]. assert (EL : forall q, listed s2 c q <-> listed s c q) by (intro q; unfold listed; rewrite (view_shown _ _ _ V); reflexivity). rewrite EL in L2.
  destruct (is_some r2); cbn [negb]; split; try discriminate.
  - intros (_ & _ & [X|[_ X]]); [contradiction|]. exfalso. assert (Y : false = true) by (apply L, X, L2; auto). discriminate Y.
  - intros _. split; auto. split; auto. right. split; auto. intro X. apply L2 in X. discriminate X.
  - auto.
Qed.
(** an error message to a client of this server *)
Lemma error_local : forall s h c i f l vals b s' me, tree s -> assoc h (s_heap s) = Some c -> cl_conn c = Some i -> cl_type c <> T_SERVER ->
  assoc This_Server (s_heap s) = Some me -> ~ In "x"%char (cl_modes me) -> prints l s vals -> IRC_WriteErrClient h f l s = Ok b s' ->
  view s s' /\ b = is_open s i /\ s_out s' = (if b then [(i, on_wire (":"%char :: cl_id me ++ " "%char :: fmt (B f) vals))] else []) ++ s_out s.
Proof.
  intros s h c i f l vals b s' me T A CI NS AM NX M H. unfold IRC_WriteErrClient in H. bd H as buf s1 H1. apply vsn_ok in H1. destruct H1 as (v2 & M2 & ->). destruct (M _ _ M2) as [-> ->].
  bd H as u s1 H1. destruct (SetPenalty_view _ _ _ _ _ H1) as (V1 & F1 & O1).
  destruct (reply_local s1 h c i "%s" [aS (firstn 999 (cut0 (fmt (B f) vals)))] [FS (firstn 999 (cut0 (fmt (B f) vals)))] b s' me) as [W1 W2 W3 W4]; auto; try (rewrite (v_heap _ _ V1); assumption); [eapply view_tree; eauto|].
  split; [etransitivity; eauto|]. rewrite (view_open _ _ _ V1) in W3. split; auto. rewrite W4, O1. f_equal. destruct b; auto. f_equal. f_equal. match goal with |- _ = on_wire ?t => change (on_wire t) with (wire t) end.
  change (fmt (B "%s") [FS (firstn 999 (cut0 (fmt (B f) vals)))]) with (firstn 999 (cut0 (fmt (B f) vals)) ++ []). rewrite app_nil_r.
  assert (E : forall x, ":"%char :: cl_id me ++ " "%char :: x = (":"%char :: cl_id me ++ [" "%char]) ++ x) by (intro; rewrite <- app_comm_cons, <- app_assoc; reflexivity). etransitivity; [|symmetry; apply f_equal, E]. etransitivity; [apply f_equal, E|]. apply wire_cut.
Qed.
Lemma prints_nil : forall s, prints [] s [].
Proof. intros s v s' H. apply mseq_nil_ok in H. tauto. Qed.
Lemma prints_S : forall x l s vals, prints l s vals -> prints (aS x :: l) s (FS x :: vals).
Proof. intros x l s vals P v s' H. apply mseq_cons_ok in H. destruct H as (a & s1 & t & H1 & H & ->). apply aS_ok in H1. destruct H1 as [-> ->]. destruct (P _ _ H) as [-> ->]. auto. Qed.
Lemma prints_ID : forall h c l s vals, assoc h (s_heap s) = Some c -> prints l s vals -> prints (aID h :: l) s (FS (id_of c) :: vals).
Proof. intros h c l s vals A P v s' H. apply mseq_cons_ok in H. destruct H as (a & s1 & t & H1 & H & ->). apply aID_ok in H1. destruct H1 as [-> (c' & A' & ->)]. rewrite A in A'. injection A' as <-. destruct (P _ _ H) as [-> ->]. auto. Qed.
Lemma prints_Chan : forall ch k l s vals, assoc ch (s_chans s) = Some k -> prints l s vals -> prints (aChan ch :: l) s (FS (ch_name k) :: vals).
Proof. intros ch k l s vals A P v s' H. apply mseq_cons_ok in H. destruct H as (a & s1 & t & H1 & H & ->). apply aChan_ok in H1. destruct H1 as [-> (c' & A' & ->)]. rewrite A in A'. injection A' as <-. destruct (P _ _ H) as [-> ->]. auto. Qed.
Lemma view_is_on : forall s s' m ch, view s s' -> (is_on s' m ch <-> is_on s m ch).
Proof. intros s s' m ch V. unfold is_on. rewrite (v_members _ _ V). reflexivity. Qed.
Lemma goes_marks : forall s h ch j d, goes_to s h ch j d <-> exists m, is_on s m ch /\ marks s h true m j d.
Proof.
  intros s h ch j d. split.
  - intros (m & x & O & N & NE & A & C). exists m. split; auto. assert (Q : exists cm, assoc m (s_heap s) = Some cm) by (inversion N as [m0 c0 L|m0 c0 i0 x0 L]; subst; rewrite lookup_assoc in L; eauto). destruct Q as (cm & Q). exists cm, x. rewrite lookup_assoc in A. auto 10.
  - intros (m & O & cm & x & A & _ & N & NE & A2 & C). exists m, x. rewrite lookup_assoc. auto.
Qed.
Lemma written_from : forall s0 s s' j l, s_out s0 = s_out s -> written s0 s' j l -> written s s' j l.
Proof. intros s0 s s' j l E (n & E2 & ->). exists n. split; auto. congruence. Qed.
Lemma Channel_Write_ok : forall ch h i cmd errs text s b s' k c me, tree s -> keyed s -> noonce (ch_bans k) -> noonce (ch_excepts k) -> assoc ch (s_chans s) = Some k -> assoc h (s_heap s) = Some c -> cl_conn c = Some i ->
  fits c -> settled c -> cl_id c <> [] -> h <> This_Server -> assoc This_Server (s_heap s) = Some me -> ~ In "x"%char (cl_modes me) ->
  Channel_Write ch h h cmd errs text s = Ok b s' -> view s s' /\
  (may_speak s h c ch k -> forall j, (is_open s j = true -> forall d, goes_to s h ch j d -> written s s' j [line_from s c d (speech cmd (ch_name k) text)]) /\
     ((is_open s j = true -> forall d, ~ goes_to s h ch j d) -> written s s' j [])) /\
  (~ may_speak s h c ch k -> forall j, written s s' j (if (i =? j)%nat && errs && is_open s i then [on_wire (":"%char :: cl_id me ++ " "%char :: refusal k c)] else [])).
Proof.
  intros ch h i cmd errs text s b s' k c me T W NB NE A AC CI F S NI NM AM NX H. assert (NS : cl_type c <> T_SERVER) by (rewrite (fi_type _ F); discriminate).
  unfold Channel_Write in H. bd H as ok s1 H1. destruct (can_send_ok _ _ _ _ _ _ _ W NB NE A AC F S NM H1) as (V1 & O1 & MS). clear H1.
  assert (T1 := view_tree _ _ V1 T). pose proof A as A1. rewrite <- (v_chans _ _ V1) in A1. pose proof AC as AC1. rewrite <- (v_heap _ _ V1) in AC1. pose proof AM as AM1. rewrite <- (v_heap _ _ V1) in AM1.
  destruct ok; cbn [negb] in H.
  - bd H as o s2 H2. unfold Client_Conn in H2. bd H2 as c1 s3 H3. apply cli_ok in H3. destruct H3 as [A2 ->]. apply ret_ok in H2. destruct H2 as [-> ->]. rewrite AC1 in A2. injection A2 as <-. rewrite CI in H. cbn [opt] in H.
    bd H as u s2 H2. unfold Conn_UpdateIdle in H2. bd H2 as t s4 H3. unfold now in H3. rdgets H3. apply upd_con_ok in H2.
    assert (V2 : view s s2) by (subst s2; etransitivity; [exact V1|]; apply (view_con i); intro; split; reflexivity). assert (O2 : s_out s2 = s_out s) by (subst s2; exact O1). clear H2.
    bd H as u2 s4 H3. apply ret_ok in H. destruct H as [-> ->]. pose proof AC as AC2. rewrite <- (v_heap _ _ V2) in AC2. pose proof A as A2. rewrite <- (v_chans _ _ V2) in A2.
    eapply chan_prefix in H3; [|eapply view_tree; eauto|rewrite (view_keys _ _ V2); apply (ky_conns _ W)|exact AC2|exact S|exact F|exact NI|apply prints_S; eapply prints_Chan; [exact A2|]; apply prints_S, prints_nil].
    destruct H3 as [V3 P]. split; [etransitivity; eauto|]. split; [|intro X; destruct X; apply MS; reflexivity]. intros _ j. destruct (P j) as [P1 P2].
    assert (EF : forall x y z, fmt (B "%s %s :%s") [FS x; FS y; FS z] = speech x y z). { intros x y z. change (x ++ " "%char :: y ++ " "%char :: ":"%char :: z ++ [] = speech x y z). rewrite app_nil_r. reflexivity. }
    rewrite EF in P1. rewrite (view_open _ _ _ V2) in P1, P2. split.
    + intros O d G. apply goes_marks in G. destruct G as (m & G1 & G2). apply (written_from _ _ _ _ _ O2). unfold line_from in P1 |- *. rewrite (view_shown _ _ _ V2) in P1. apply (P1 O m d); [apply (view_is_on _ _ _ _ V2); auto|apply (view_marks _ _ _ _ _ _ _ V2); auto].
    + intro Q. apply (written_from _ _ _ _ _ O2). apply P2. intros O m d I K. apply (Q O d). apply goes_marks. exists m. split; [apply (view_is_on _ _ _ _ V2); auto|apply (view_marks _ _ _ _ _ _ _ V2); auto].
  - assert (ND : ~ may_speak s h c ch k) by (intro X; apply MS in X; discriminate X). destruct errs; cbn [negb] in H.
    + assert (G : exists msg, IRC_WriteErrClient h msg [aID h; aChan ch] s1 = Ok b s' /\ fmt (B msg) [FS (cl_id c); FS (ch_name k)] = refusal k c).
      { bd H as m s2 H2. apply ChHasMode_ok in H2. destruct H2 as (-> & k1 & A2 & ->). rewrite A1 in A2. injection A2 as <-. unfold refusal. change (strchr0 "M" (ch_modes k)) with (memb "M" (ch_modes k)) in H. destruct (memb "M" (ch_modes k)); eexists; (split; [exact H|]); reflexivity. }
      destruct G as (msg & H1 & EM). eapply error_local in H1; [|exact T1|exact AC1|exact CI|exact NS|exact AM1|exact NX|eapply prints_ID; [exact AC1|]; eapply prints_Chan; [exact A1|apply prints_nil]].
      destruct H1 as (V2 & -> & O2). rewrite (fits_type_id _ NI), EM in O2. split; [etransitivity; eauto|]. split; [intro; contradiction|]. intros _ j. rewrite (view_open _ _ _ V1) in O2. rewrite O1 in O2. rewrite andb_true_r. destruct (is_open s i).
      * rewrite andb_true_r. apply (written_one s s' i _ O2).
      * rewrite andb_false_r. exists []. auto.
    + apply ret_ok in H. destruct H as [_ ->]. split; auto. split; [intro; contradiction|]. intros _ j. rewrite andb_false_r. exists []. auto.
Qed.

(** ---- a line to one client ---- *)
Lemma prefix_ok : forall to pref f l s b s' p vals, assoc pref (s_heap s) = Some p -> settled p -> fits p -> cl_id p <> [] -> prints l s vals -> IRC_WriteStrClientPrefix to pref f l s = Ok b s' ->
  exists x d j, next_hop s to x /\ assoc x (s_heap s) = Some d /\ cl_conn d = Some j /\ view s s' /\ b = is_open s j /\ s_out s' = (if b then [(j, line_from s p d (fmt (B f) vals))] else []) ++ s_out s.
Proof.
  intros to pref f l s b s' p vals A S F NI P H. destruct (WriteStrClientPrefix_ok _ _ _ _ _ _ _ H) as (v2 & s1 & x & d & j & pf & s2 & M & N & A1 & C1 & G & [W1 W2 W3 W4]). destruct (P _ _ M) as [-> ->].
  exists x, d, j. split; auto. split; auto. split; auto. unfold Get_Prefix in G. bd G as t s3 G1. apply is_type_ok in G1. destruct G1 as (-> & d' & A2 & ->). rewrite A1 in A2. injection A2 as <-. unfold line_from.
  assert (Q : s2 = s /\ pf = if ctype_eqb (cl_type d) T_SERVER then cl_id p else shown_mask s p).
  { destruct (ctype_eqb (cl_type d) T_SERVER).
    - apply Client_ID_ok in G. destruct G as [-> (p' & A' & ->)]. rewrite A in A'. injection A' as <-. split; auto. apply fits_type_id; auto.
    - destruct (Mask_settled _ _ _ _ _ A S G) as [-> _]. destruct (MaskCloaked_shown _ _ _ _ _ A F G) as [_ ->]. auto. }
  destruct Q as [-> ->]. auto.
Qed.
(** ---- whom a target means ---- *)
Lemma caseeq_len : forall a b, caseeq a b = true -> List.length a = List.length b.
Proof. intros a b H. apply caseeq_iff in H. unfold Bytes.lower in H. apply (f_equal (@List.length _)) in H. rewrite !map_length in H. exact H. Qed.
Lemma split1_none : forall c t, ~ In c t -> split1 c t = (t, None).
Proof. intros c t N. unfold split1. pose proof (strchr_spec c t) as K. destruct (strchr c t) as [[a r]|]; auto. destruct K as (K & _ & x & ->). exfalso. apply N. rewrite K. apply in_app_iff. right. left. auto. Qed.
Lemma strlcpy_short : forall n t, List.length t < n -> strlcpy n t = t.
Proof. intros n t L. unfold strlcpy. destruct n; [lia|]. destruct (S n <=? List.length t) eqn:E; auto. apply Nat.leb_le in E. lia. Qed.
Lemma find_chan : forall t s o s', only_channel s t -> List.length t < COMMAND_LEN -> find_target t s = Ok o s' -> s' = s /\ o = None.
Proof.
  intros t s o s' (NE & CH & NC & NU) LT H. unfold find_target in H. bd H as r s1 H1.
  assert (NB : ~ In "!"%char t) by (intro I; apply (CH _ I); right; left; auto). destruct (memb "!" t) eqn:MB; [apply memb_In in MB; contradiction|].
  apply Client_Search_ok in H1. destruct H1 as [-> H1]. destruct r as [h|].
  { destruct H1 as (I & c & A & HI). destruct (NC h). eapply has_id_called; eauto. }
  clear H1. bd H as l s1 H1. unfold Clients in H1. rdgets H1.
  assert (EM : msg_target t = mkMt None t None None).
  { unfold msg_target. rewrite strlcpy_short by exact LT. rewrite split1_none by (intro I; apply (CH _ I); cbn; auto). rewrite split1_none by (intro I; apply (CH _ I); cbn; auto 6). rewrite split1_none by exact NB. reflexivity. }
  rewrite EM in H. assert (PR : forall a b s2, target_match (mkMt None t None None) a s = Ok b s2 -> s2 = s /\ (b = true -> exists c, assoc a (s_heap s) = Some c /\ caseeq t (user_of c) = true)).
  { clear. intros a b s2 H. unfold target_match in H. bd H as c s3 H3. apply cli_ok in H3. destruct H3 as [A ->]. destruct (negb _ && _); [apply ret_ok in H; destruct H as [-> ->]; split; [auto|discriminate]|]. cbv zeta in H. cbn [mt_nick mt_host mt_user mt_server] in H.
    assert (K : forall m q s4, andM (u <- Client_User a ;; ret (caseeq t u)) (andM (ret true) m) s = Ok q s4 -> (forall q2 s5 s6, m s5 = Ok q2 s6 -> s6 = s5) -> s4 = s /\ (q = true -> caseeq t (user_of c) = true)).
    { clear H b s2. intros m q s4 H Hm. apply andM_ok in H. destruct H as (b1 & s5 & H1 & H). bd H1 as u s6 H2. apply ret_ok in H1. destruct H1 as [-> ->]. unfold Client_User in H2. bd H2 as c' s7 H3. apply cli_ok in H3. destruct H3 as [A' ->]. rewrite A in A'. injection A' as <-. apply ret_ok in H2. destruct H2 as [-> ->]. fold (user_of c) in H.
      destruct H as [(EQ & -> & ->)|(EQ & H)]; [split; [auto|discriminate]|]. split; auto. apply andM_ok in H. destruct H as (b1 & s5 & H1 & H). apply ret_ok in H1. destruct H1 as [-> ->]. destruct H as [(Q & _)|(_ & H)]; [discriminate Q|]. eapply Hm; eauto. }
    destruct (K _ _ _ H) as [K1 K2]; [intros q2 s5 s6 E; apply ret_ok in E; tauto|]. split; auto. intro E. exists c. auto. }
  destruct (mfind_ok _ _ _ _ (fun a b s2 E => proj1 (PR a b s2 E)) _ _ H) as [-> K]. split; auto. destruct o as [a|]; auto. destruct K as [I K]. destruct (proj2 (PR _ _ _ K) eq_refl) as (c & A & E). exfalso. apply (NU a c); [split; auto; rewrite lookup_assoc; auto|]. apply same_name_iff. exact E.
Qed.
Lemma find_nick : forall t s o s' g d, the_client s t g d -> (cl_hash d = Hash (cl_id d) \/ cl_id d = []) -> cl_id d <> [] -> ~ In "!"%char t -> find_target t s = Ok o s' -> s' = s /\ o = Some g.
Proof.
  intros t s o s' g d ((I & A) & (d' & (_ & A') & SN) & UN) HH NI NB H. rewrite lookup_assoc in A, A'. rewrite A in A'. injection A' as <-. unfold find_target in H. bd H as r s1 H1. destruct (memb "!" t) eqn:MB; [apply memb_In in MB; contradiction|].
  apply Client_Search_ok in H1. destruct H1 as [-> H1]. destruct r as [h|].
  - apply ret_ok in H. destruct H as [-> ->]. split; auto. f_equal. apply UN. destruct H1 as (I1 & c & A1 & HI). eapply has_id_called; eauto.
  - destruct (H1 g I) as (c & A1 & HI). rewrite A in A1. injection A1 as <-. exfalso. unfold has_id in HI. rewrite search_nick in HI. apply same_name_iff in SN. rewrite SN in HI. destruct HH as [HH|]; [|contradiction]. rewrite HH, (Hash_case _ _ SN), N.eqb_refl in HI. discriminate HI.
Qed.
Lemma strtok_one : forall d t, ~ In d t -> t <> [] -> strtok d t = [t].
Proof.
  intros d t N NE. assert (K : forall t cur, ~ In d t -> strtok_aux d t cur = match rev cur ++ t with [] => [] | x => [x] end).
  { clear. induction t as [|a t IH]; intros cur N; cbn [strtok_aux].
    - rewrite app_nil_r. destruct cur as [|x cur]; auto. destruct (rev (x :: cur)) eqn:E; auto. apply (f_equal (@List.length _)) in E. rewrite rev_length in E. discriminate E.
    - destruct (Ascii.eqb_spec a d) as [-> |NE]; [destruct N; left; auto|]. rewrite IH by (intro; apply N; right; auto). cbn [rev]. rewrite <- app_assoc. reflexivity. }
  unfold strtok. rewrite K by exact N. cbn [rev app]. destruct t; [contradiction|reflexivity].
Qed.

(** ---- a line with one target ---- *)
Lemma toupper_tolower : forall a, Bytes.toupper (Bytes.tolower a) = Bytes.toupper a.
Proof. intros [[] [] [] [] [] [] [] []]; reflexivity. Qed.
Lemma upper_name : forall n m, same_name n m -> Bytes.upper n = Bytes.upper m.
Proof.
  intros n m H. apply same_name_iff in H. apply caseeq_iff in H. unfold Bytes.lower in H. unfold Bytes.upper. rewrite <- (map_ext _ _ toupper_tolower n), <- (map_ext _ _ toupper_tolower m). rewrite <- !(map_map Bytes.tolower Bytes.toupper). congruence.
Qed.
(** what PRIVMSG (or NOTICE) with one target does *)
Lemma one_target : forall s i h c text n args t msg b s' errs, live s -> undisturbed s -> client_of s i h c -> cl_type c = T_USER -> orders s text n args -> args = [t; msg] -> (n = "PRIVMSG"%string /\ errs = true \/ n = "NOTICE"%string /\ errs = false) ->
  t <> [] -> ~ In ","%char t -> msg <> [] -> Parse_Request i text s = Ok b s' ->
  exists s1 x, view s s1 /\ s_out s1 = s_out s /\ send_one h h T_USER errs (B n) t msg s1 = Ok x s'.
Proof.
  intros s i h c text n args t msg b s' errs L U C T O EA NN NT NC NM H. subst args. assert (EX : exists name s1, view s s1 /\ s_out s1 = s_out s /\ same_name name (B n) /\ Send_Message h (mkReq None name [t; msg]) T_USER errs s1 = Ok b s').
  { destruct NN as [[-> ->]|[-> ->]].
    - eapply run_ordered in H; [|exact C|congruence|exact O|reflexivity|rewrite T; reflexivity|cbn; lia|intros m E; cbn in E; first [discriminate E|injection E as <-; cbn; lia]]. exact H.
    - eapply run_ordered in H; [|exact C|congruence|exact O|reflexivity|rewrite T; reflexivity|cbn; lia|intros m E; cbn in E; first [discriminate E|injection E as <-; cbn; lia]]. exact H. }
  destruct EX as (name & s1 & V & O1 & SN & H1). exists s1. unfold Send_Message in H1. cbn [argc rq_args List.length] in H1. change (argc {| rq_prefix := None; rq_command := name; rq_args := [t; msg] |}) with 2 in H1. cbv zeta iota in H1.
  bd H1 as sv s2 H2. apply is_type_ok in H2. destruct H2 as (-> & c1 & A1 & ->). cbn [rq_prefix] in H1. bd H1 as o s2 H2. apply ret_ok in H2. destruct H2 as [-> ->]. change (arg {| rq_prefix := None; rq_command := name; rq_args := [t; msg] |} 1) with msg in H1. change (arg {| rq_prefix := None; rq_command := name; rq_args := [t; msg] |} 0) with t in H1. cbn [rq_command] in H1.
  destruct (beq msg []) eqn:E; [apply beq_eq in E; contradiction|]. rewrite (upper_name _ _ SN), (strtok_one _ _ NC NT) in H1.
  assert (EU : Bytes.upper (B n) = B n) by (destruct NN as [[-> _]|[-> _]]; reflexivity). rewrite EU in H1. cbn [send_loop existsb] in H1. bd H1 as x s2 H2. destruct x as [x cmd]. exists (x, cmd). split; auto. split; auto.
  assert (s2 = s') by (destruct x; apply ret_ok in H1; destruct H1; auto). subst s2. exact H2.
Qed.
Lemma local_user : forall s i h c, live s -> undisturbed s -> client_of s i h c -> cl_type c = T_USER ->
  tree s /\ keyed s /\ assoc h (s_heap s) = Some c /\ cl_conn c = Some i /\ fits c /\ cl_id c <> [] /\ h <> This_Server.
Proof.
  intros s i h c L U C T. pose proof (live_itree _ L U) as TR. destruct (user_fits _ _ _ _ L U C T) as [F NI]. destruct C as [(cn & C1 & C3) C2]. rewrite lookup_assoc in C1, C2.
  split; auto. split; [apply wf_keyed, live_wf; auto|]. split; auto. split; [destruct (tr_c2h _ TR _ _ C1) as (h' & c' & K1 & K2 & K3); rewrite C3 in K1; injection K1 as <-; rewrite C2 in K2; injection K2 as <-; exact K3|]. split; auto. split; auto. intros ->. destruct (tr_me _ TR) as (me & A & B1 & _). congruence.
Qed.
Lemma search_one : forall s name ch k o s', live s -> the_channel s name ch k -> Channel_Search name s = Ok o s' -> s' = s /\ o = Some ch.
Proof.
  intros s name ch k o s' L (E & SN & UN) H. unfold Channel_Search in H. rdgets H. split; auto. unfold exists_chan in E. rewrite lookup_assoc in E. pose proof (live_wf _ L) as W.
  assert (Q : chan_is name k = true). { apply same_name_iff in SN. unfold chan_is. rewrite SN, (Hash_case _ _ SN), (kg_hash _ _ _ (ic_good _ (live_ichan _ L) _ _ E)), N.eqb_refl. reflexivity. }
  destruct (find _ _) as [[ch' k']|] eqn:FD.
  - cbn. f_equal. apply find_some in FD. destruct FD as [I P]. cbn [snd] in P. apply (UN ch' k'); [unfold exists_chan; rewrite lookup_assoc; apply In_assoc; auto; apply (wf_chans _ W)|]. unfold chan_is in P. apply andb_true_iff in P. apply same_name_iff. tauto.
  - exfalso. apply assoc_In in E. pose proof (find_none _ _ FD _ E) as P. cbn [snd] in P. congruence.
Qed.
Definition heard (s s' : state) (h : handle) (c : client) (ch : chandle) (t : bytes) : Prop :=
  forall j, (is_open s j = true -> forall d, goes_to s h ch j d -> written s s' j [line_from s c d t]) /\ ((is_open s j = true -> forall d, ~ goes_to s h ch j d) -> written s s' j []).
Theorem chan_message : forall s i h c text n name msg b s' ch k me, live s -> undisturbed s -> client_of s i h c -> cl_type c = T_USER -> settled c ->
  lookup This_Server (s_heap s) = Some me -> ~ In "x"%char (cl_modes me) -> orders s text n [name; msg] -> In n ["PRIVMSG"; "NOTICE"]%string -> msg <> [] -> only_channel s name -> the_channel s name ch k -> Parse_Request i text s = Ok b s' ->
  (may_speak s h c ch k -> heard s s' h c ch (speech (B n) (ch_name k) msg)) /\
  (~ may_speak s h c ch k -> forall j, written s s' j (if (i =? j)%nat && String.eqb n "PRIVMSG" && is_open s i then [on_wire (":"%char :: cl_id me ++ " "%char :: refusal k c)] else [])).
Proof.
  intros s i h c text n name msg b s' ch k me L U C T S AM NX O NN NM OC TC H. destruct (local_user _ _ _ _ L U C T) as (TR & KY & A & CI & F & NI & NH).
  assert (NE : exists errs, (n = "PRIVMSG"%string /\ errs = true \/ n = "NOTICE"%string /\ errs = false) /\ errs = String.eqb n "PRIVMSG"). { destruct NN as [<- |[<- |[]]]; eexists; (split; [|reflexivity]); auto. }
  destruct NE as (errs & NE & EE). rewrite <- EE.
  destruct (one_target s i h c text n _ name msg b s' errs L U C T O eq_refl NE) as (s1 & x & V & O1 & H1); auto; [apply OC|intro I; apply (proj1 (proj2 OC) _ I); left; auto|].
  assert (EC : exists k0, assoc ch (s_chans s) = Some k0 /\ k0 = k) by (destruct TC as [E _]; unfold exists_chan in E; rewrite lookup_assoc in E; eauto). destruct EC as (k0 & EC & ->).
  assert (LN : List.length name < COMMAND_LEN). { destruct TC as (E & SN & _). apply same_name_iff, caseeq_len in SN. rewrite SN. pose proof (kg_name _ _ _ (ic_good _ (live_ichan _ L) _ _ EC)) as Q. unfold CHANNEL_NAME_LEN in Q. unfold COMMAND_LEN. lia. }
  unfold send_one in H1. cbv zeta in H1. bd H1 as o s2 H2.
  assert (OC1 : only_channel s1 name). { destruct OC as (Q1 & Q2 & Q3 & Q4). split; auto. split; auto. unfold called, known in *. rewrite (v_clients _ _ V), (v_heap _ _ V). auto. }
  destruct (find_chan _ _ _ _ OC1 LN H2) as [-> ->]. change (negb (ctype_eqb T_USER T_SERVICE)) with true in H1. cbv iota in H1. bd H1 as co s2 H3.
  assert (SE : s2 = s1 /\ co = Some ch). { assert (Q : Channel_Search name s = Ok co s) by (unfold Channel_Search in H3 |- *; unfold gets in H3 |- *; injection H3 as <- _; rewrite (v_chans _ _ V); reflexivity). destruct (search_one _ _ _ _ _ _ L TC Q) as [_ Q2]. split; [|exact Q2]. unfold Channel_Search, gets in H3. injection H3 as _ <-. reflexivity. }
  destruct SE as [-> ->]. bd H1 as ok s2 H4. apply ret_ok in H1. destruct H1 as [_ <-]. destruct (kg_once _ _ _ (ic_good _ (live_ichan _ L) _ _ EC)) as [NB NX2]. rewrite lookup_assoc in AM.
  eapply (Channel_Write_ok ch h i (B n) errs msg s1 ok s' k c me) in H4; auto; [|eapply view_tree; eauto|eapply view_keyed; eauto|rewrite (v_chans _ _ V); auto|rewrite (v_heap _ _ V); auto|rewrite (v_heap _ _ V); auto].
  destruct H4 as (V2 & P1 & P2). assert (MSE : may_speak s1 h c ch k <-> may_speak s h c ch k). { unfold may_speak, voiced, has_priv, listed, is_on. rewrite (v_members _ _ V), (view_shown _ _ _ V). reflexivity. } rewrite MSE in P1, P2.
  split.
  - intros MS j. destruct (P1 MS j) as [P3 P4]. rewrite (view_open _ _ _ V) in P3, P4. assert (GE : forall d, goes_to s1 h ch j d <-> goes_to s h ch j d). { intro d. rewrite !goes_marks. split; intros (m & Q1 & Q2); exists m; (split; [apply (view_is_on _ _ _ _ V); auto|apply (view_marks _ _ _ _ _ _ _ V); auto]). }
    split.
    + intros OP d G. apply (written_from _ _ _ _ _ O1). unfold line_from in *. rewrite (view_shown _ _ _ V) in P3. apply P3; auto. apply GE; auto.
    + intros Q. apply (written_from _ _ _ _ _ O1). apply P4. intros OP d G. apply (Q OP d). apply GE; auto.
  - intros NS j. apply (written_from _ _ _ _ _ O1). rewrite (view_open _ _ _ V) in P2. apply P2; auto.
Qed.
(** ---- messages to users ---- *)
Lemma same_channel_ok : forall g h s b s', on_same_channel g h s = Ok b s' -> s' = s /\ (b = true <-> exists ch, is_on s g ch /\ is_on s h ch).
Proof.
  intros g h s b s' H. unfold on_same_channel in H. bd H as l s1 H1. unfold ChannelsOf in H1. rdgets H1. bd H as o s1 H1. apply ret_ok in H. destruct H as [-> ->].
  destruct (mfind_ok _ _ _ _ (fun a b s2 E => proj1 (IsMemberOf_on a h s b s2 E)) _ _ H1) as [-> K]. split; auto.
  assert (ON : forall ch, In ch (map mb_chan (filter (fun m => heq (mb_client m) g) (s_members s))) <-> is_on s g ch).
  { intro ch. unfold is_on. rewrite in_map_iff. split; intros (x & E & I).
    - apply filter_In in I. destruct I as [I E2]. apply Nat.eqb_eq in E2. exists x. auto.
    - destruct I as [I1 I2]. exists x. split; auto. apply filter_In. split; auto. apply Nat.eqb_eq. auto. }
  destruct o as [ch|]; cbn [is_some].
  - split; auto. intros _. destruct K as [I K]. exists ch. split; [apply ON; auto|]. apply (proj2 (IsMemberOf_on _ _ _ _ _ K)); auto.
  - split; [discriminate|]. intros (ch & I1 & I2). apply ON in I1. specialize (K _ I1). apply (proj2 (IsMemberOf_on _ _ _ _ _ K)) in I2. discriminate.
Qed.
Lemma written_two : forall s s' (o1 o2 : option (connid * bytes)), s_out s' = (match o2 with Some p => [p] | None => [] end) ++ (match o1 with Some p => [p] | None => [] end) ++ s_out s ->
  forall k, written s s' k ((match o1 with Some (i, t) => if (i =? k)%nat then [t] else [] | None => [] end) ++ match o2 with Some (i, t) => if (i =? k)%nat then [t] else [] | None => [] end).
Proof.
  intros s s' o1 o2 E k. exists ((match o2 with Some p => [p] | None => [] end) ++ match o1 with Some p => [p] | None => [] end). split; [rewrite E, app_assoc; reflexivity|]. unfold connid in *.
  rewrite filter_app, map_app, rev_app_distr. f_equal; [destruct o1 as [[i t]|]|destruct o2 as [[i t]|]]; cbn [filter fst]; auto; destruct (i =? k)%nat; reflexivity.
Qed.
Lemma fmt486 : forall a b, fmt (B ERR_NONONREG_MSG) [FS a; FS b] = B "486 " ++ a ++ B " :Cannot send to user (+b) -- You must identify to a registered nick to private message " ++ b.
Proof. intros a b. transitivity (B "486 " ++ a ++ B " :Cannot send to user (+b) -- You must identify to a registered nick to private message " ++ b ++ []); [reflexivity|rewrite app_nil_r; reflexivity]. Qed.
Lemma fmt493 : forall a b, fmt (B ERR_NOTONSAMECHANNEL_MSG) [FS a; FS b] = B "493 " ++ a ++ B " :You must share a common channel with " ++ b.
Proof. intros a b. transitivity (B "493 " ++ a ++ B " :You must share a common channel with " ++ b ++ []); [reflexivity|rewrite app_nil_r; reflexivity]. Qed.
Lemma fmt301 : forall a b t, fmt (B RPL_AWAY_MSG) [FS a; FS b; FS t] = B "301 " ++ a ++ " "%char :: b ++ B " :" ++ t.
Proof. intros a b t. transitivity (B "301 " ++ a ++ " "%char :: b ++ B " :" ++ t ++ []); [reflexivity|rewrite app_nil_r; reflexivity]. Qed.
Lemma fmt_speech : forall x y z, fmt (B "%s %s :%s") [FS x; FS y; FS z] = speech x y z.
Proof. intros x y z. change (x ++ " "%char :: y ++ " "%char :: ":"%char :: z ++ [] = speech x y z). rewrite app_nil_r. reflexivity. Qed.
Theorem priv_message : forall s i h c text n t msg b s' g d me, live s -> undisturbed s -> client_of s i h c -> cl_type c = T_USER -> settled c -> is_open s i = true ->
  lookup This_Server (s_heap s) = Some me -> ~ In "x"%char (cl_modes me) -> orders s text n [t; msg] -> In n ["PRIVMSG"; "NOTICE"]%string -> msg <> [] -> t <> [] -> (forall x, In x t -> ~ In x (B ",!")) ->
  the_client s t g d -> In (cl_type d) [T_USER; T_SERVICE] -> Parse_Request i text s = Ok b s' ->
  (may_reach s h c g d -> exists x dx j, next_hop s g x /\ lookup x (s_heap s) = Some dx /\ cl_conn dx = Some j /\ forall k, written s s' k
    ((if (i =? k)%nat && String.eqb n "PRIVMSG" && memb "a" (cl_modes d) then [on_wire (":"%char :: cl_id me ++ " "%char :: away_reply c d)] else []) ++
     (if (j =? k)%nat && is_open s j then [line_from s c dx (speech (B n) (cl_id d) msg)] else []))) /\
  (~ may_reach s h c g d -> forall k, written s s' k (if (i =? k)%nat && String.eqb n "PRIVMSG" then [on_wire (":"%char :: cl_id me ++ " "%char :: refusal_of c d)] else [])).
Proof.
  intros s i h c text n t msg b s' g d me L U C T S OP AM NX O NN NM NT CH TC TD H. destruct (local_user _ _ _ _ L U C T) as (TR & KY & A & CI & F & NI & NH).
  assert (NE : exists errs, (n = "PRIVMSG"%string /\ errs = true \/ n = "NOTICE"%string /\ errs = false) /\ errs = String.eqb n "PRIVMSG"). { destruct NN as [<- |[<- |[]]]; eexists; (split; [|reflexivity]); auto. }
  destruct NE as (errs & NE & EE). rewrite <- EE.
  destruct (one_target s i h c text n _ t msg b s' errs L U C T O eq_refl NE) as (s1 & x & V & O1 & H1); auto; [intro I; apply (CH _ I); left; auto|].
  assert (AG : assoc g (s_heap s) = Some d) by (destruct TC as [[_ Q] _]; rewrite lookup_assoc in Q; auto).
  assert (ND : cl_id d <> []). { intro E. destruct TC as (_ & (d' & (_ & A') & SN) & _). rewrite lookup_assoc, AG in A'. injection A' as <-. rewrite E in SN. unfold nick_part in SN. destruct t as [|a t]; [contradiction|]. cbn [firstn before_bang] in SN. destruct (Ascii.eqb_spec a "!") as [-> |]; [apply (CH "!"%char); [left; auto|right; left; auto]|discriminate SN]. }
  assert (TC1 : the_client s1 t g d). { destruct TC as (Q1 & Q2 & Q3). unfold the_client, called, known in *. rewrite (v_clients _ _ V), (v_heap _ _ V). auto. }
  assert (HD : cl_hash d = Hash (cl_id d) \/ cl_id d = []) by (destruct (cg_hash _ (live_icli _ L _ _ AG)); auto).
  unfold send_one in H1. cbv zeta in H1. bd H1 as o s2 H2. destruct (find_nick _ _ _ _ _ _ TC1 HD ND ltac:(intro I; apply (CH _ I); right; left; auto) H2) as [-> ->]. bd H1 as q s2 H3. destruct q as [ok cmd]. apply ret_ok in H1. destruct H1 as [_ <-].
  clear H2. rewrite lookup_assoc in AM. pose proof A as A1. rewrite <- (v_heap _ _ V) in A1. pose proof AG as AG1. rewrite <- (v_heap _ _ V) in AG1. pose proof AM as AM1. rewrite <- (v_heap _ _ V) in AM1. assert (TR1 := view_tree _ _ V TR). assert (NS : cl_type c <> T_SERVER) by congruence.
  unfold send_to_client in H3. bd H3 as ty s3 H4. apply Client_Type_ok in H4. destruct H4 as (-> & d1 & AG2 & ->). rewrite AG1 in AG2. injection AG2 as <-.
  assert (TT : negb (ctype_eqb (cl_type d) T_USER) && negb (ctype_eqb T_USER T_USER && (ctype_eqb (cl_type d) T_USER || ctype_eqb (cl_type d) T_SERVICE)) = false) by (destruct TD as [<- |[<- |[]]]; reflexivity). rewrite TT in H3. clear TT.
  bd H3 as rf s3 H4. change (ctype_eqb T_USER T_SERVICE) with false in H4. cbv iota in H4. apply ret_ok in H4. destruct H4 as [-> ->]. cbv zeta iota in H3. bd H3 as d1 s3 H4. apply cli_ok in H4. destruct H4 as [Q ->]. rewrite AG1 in Q. injection Q as <-. bd H3 as c1 s3 H4. apply cli_ok in H4. destruct H4 as [Q ->]. rewrite A1 in Q. injection Q as <-.
  rewrite T in H3. change (ctype_eqb T_USER T_SERVER || ctype_eqb T_USER T_SERVICE) with false in H3. cbn [negb] in H3. rewrite !andb_true_r in H3.
  assert (REF : forall m f vals z, refusal_of c d = fmt (B f) vals -> prints m s1 vals -> (ok <- (if errs then IRC_WriteErrClient h f m else ret true) ;; ret (ok, B n)) s1 = Ok z s' -> forall k, written s s' k (if (i =? k)%nat && errs then [on_wire (":"%char :: cl_id me ++ " "%char :: refusal_of c d)] else [])).
  { intros m f vals z EF P HR k. apply (written_from _ _ _ _ _ O1). bd HR as z1 s4 H5. apply ret_ok in HR. destruct HR as [_ <-]. destruct errs.
    - eapply error_local in H5; [|exact TR1|exact A1|exact CI|exact NS|exact AM1|exact NX|exact P]. destruct H5 as (V2 & Q & O2). rewrite (view_open _ _ _ V), OP in Q. subst z1. rewrite <- EF in O2. rewrite andb_true_r. apply (written_one _ _ _ _ O2).
    - apply ret_ok in H5. destruct H5 as [_ ->]. rewrite andb_false_r. exists []. auto. }
  destruct (memb "b" (cl_modes d) && negb (memb "R" (cl_modes c)) && negb (memb "o" (cl_modes c))) eqn:EB.
  { assert (NR : ~ may_reach s h c g d). { intros [Q _]. rewrite !andb_true_iff, !negb_true_iff in EB. destruct EB as [[E1 E2] E3]. apply memb_In in E1. destruct (Q E1) as [Y|Y]; apply memb_In in Y; congruence. }
    split; [intro; contradiction|]. intros _. eapply REF; [|eapply prints_ID; [exact A1|]; eapply prints_ID; [exact AG1|apply prints_nil]|exact H3]. unfold refusal_of. rewrite EB, !fits_type_id by auto. symmetry. apply fmt486. }
  assert (P1 : In "b"%char (cl_modes d) -> In "R"%char (cl_modes c) \/ In "o"%char (cl_modes c)). { intro X. apply memb_In in X. rewrite X in EB. destruct (memb "R" (cl_modes c)) eqn:Y; [left; apply memb_In; auto|]. destruct (memb "o" (cl_modes c)) eqn:Y2; [right; apply memb_In; auto|]. discriminate EB. }
  bd H3 as bl s3 H4.
  assert (BL : s3 = s1 /\ (bl = false <-> (In "C"%char (cl_modes d) -> In "o"%char (cl_modes c) \/ exists ch, is_on s g ch /\ is_on s h ch))).
  { destruct (memb "C" (cl_modes d)) eqn:EC; cbn [andb] in H4.
    - destruct (memb "o" (cl_modes c)) eqn:EO; cbn [negb] in H4.
      + apply ret_ok in H4. destruct H4 as [-> ->]. split; auto. split; auto. intros _ _. left. apply memb_In. auto.
      + apply notM_ok in H4. apply same_channel_ok in H4. destruct H4 as [-> Q]. split; auto. unfold is_on in Q |- *. rewrite (v_members _ _ V) in Q. split.
        * intros -> _. right. apply Q. reflexivity.
        * intro X. destruct bl; auto. exfalso. apply memb_In in EC. destruct (X EC) as [Y|Y]; [apply memb_In in Y; congruence|apply Q in Y; discriminate Y].
    - apply ret_ok in H4. destruct H4 as [-> ->]. split; auto. split; auto. intros _ X. apply memb_In in X. congruence. }
  destruct BL as [-> BL]. clear H4. destruct bl.
  { assert (NR : ~ may_reach s h c g d). { intros [_ Q]. apply BL in Q. discriminate Q. } split; [intro; contradiction|]. intros _. eapply REF; [|eapply prints_ID; [exact A1|]; eapply prints_ID; [exact AG1|apply prints_nil]|exact H3]. unfold refusal_of. rewrite EB, !fits_type_id by auto. symmetry. apply fmt493. }
  assert (MR : may_reach s h c g d) by (split; auto; apply BL; auto). split; [|intro; contradiction]. intros _.
  bd H3 as cs s3 H4. apply is_type_ok in H4. destruct H4 as (-> & c1 & Q & ->). rewrite A1 in Q. injection Q as <-. rewrite T in H3. change (ctype_eqb T_USER T_SERVER) with false in H3. cbn [negb] in H3. rewrite andb_true_r in H3.
  bd H3 as ok2 s3 H4.
  assert (AW : ok2 = true /\ view s1 s3 /\ s_out s3 = (match (if errs && memb "a" (cl_modes d) then Some (i, on_wire (":"%char :: cl_id me ++ " "%char :: away_reply c d)) else None) with Some p => [p] | None => [] end) ++ s_out s1).
  { destruct (errs && memb "a" (cl_modes d)).
    - assert (M : exists s9 vals, mseq [aID h; aID g; aS (match cl_away d with Some t => t | None => B "(null)" end)] s1 = Ok vals s9). { unfold IRC_WriteStrClient in H4. destruct (WriteStrClientPrefix_ok _ _ _ _ _ _ _ H4) as (v2 & s9 & ? & ? & ? & ? & ? & M & _). eauto. }
      destruct M as (s9 & vals & M). assert (PV : prints [aID h; aID g; aS (match cl_away d with Some t => t | None => B "(null)" end)] s1 [FS (id_of c); FS (id_of d); FS (match cl_away d with Some t => t | None => B "(null)" end)]). { eapply prints_ID; [exact A1|]. eapply prints_ID; [exact AG1|]. apply prints_S, prints_nil. }
      destruct (PV _ _ M) as [-> ->]. eapply reply_local in H4; [|exact TR1|exact A1|exact CI|exact NS|exact AM1|exact NX|exact M]. destruct H4 as [W1 W2 W3 W4]. rewrite (view_open _ _ _ V), OP in W3. subst ok2. split; auto. split; auto. rewrite fmt301, !fits_type_id in W4 by auto. exact W4.
    - apply ret_ok in H4. destruct H4 as [-> ->]. split; auto. split; [reflexivity|auto]. }
  destruct AW as (-> & V3 & O3). clear H4. cbn [negb] in H3. rewrite CI in H3. cbn [opt] in H3. bd H3 as u s4 H4. unfold Conn_UpdateIdle in H4. bd H4 as tt0 s5 H5. unfold now in H5. rdgets H5. apply upd_con_ok in H4.
  assert (V4 : view s s4) by (subst s4; etransitivity; [exact V|]; etransitivity; [exact V3|]; apply (view_con i); intro; split; reflexivity). assert (O4 : s_out s4 = s_out s3) by (subst s4; reflexivity). clear H4.
  bd H3 as ok3 s5 H5. apply ret_ok in H3. destruct H3 as [_ <-].
  eapply (prefix_ok _ _ _ _ _ _ _ c) in H5; [|rewrite (v_heap _ _ V4); exact A|exact S|exact F|exact NI|apply prints_S; eapply prints_ID; [rewrite (v_heap _ _ V4); exact AG|]; apply prints_S, prints_nil].
  destruct H5 as (y & dy & j & N & AY & CJ & V5 & EO & O5). exists y, dy, j. split; [eapply view_next; [|exact N]; symmetry; apply (v_heap _ _ V4)|]. split; [rewrite lookup_assoc, <- (v_heap _ _ V4); exact AY|]. split; auto.
  rewrite fmt_speech, (fits_type_id d ND) in O5. rewrite (view_open _ _ _ V4) in EO. subst ok3. intro k.
  pose proof (written_two s s' (if errs && memb "a" (cl_modes d) then Some (i, on_wire (":"%char :: cl_id me ++ " "%char :: away_reply c d)) else None) (if is_open s j then Some (j, line_from s c dy (speech (B n) (cl_id d) msg)) else None)) as WT.
  assert (E0 : line_from s4 c dy (speech (B n) (cl_id d) msg) = line_from s c dy (speech (B n) (cl_id d) msg)) by (unfold line_from; rewrite (view_shown _ _ _ V4); reflexivity). rewrite E0 in O5.
  specialize (WT ltac:(rewrite O5, O4, O3, O1; destruct (is_open s j); reflexivity) k).
  destruct (errs && memb "a" (cl_modes d)) eqn:EA, (is_open s j); rewrite <- ?andb_assoc, ?EA, ?andb_true_r, ?andb_false_r; exact WT.
Qed.
