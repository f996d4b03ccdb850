(** The exact effect of losing a connection, and the limits on the number of connections. *)
From Coq Require Import List Ascii String ZArith NArith Bool Lia Arith.
From Verif Require Import Bytes Match Lists Hash State Messages Monad Core Write Info Chan Mode Msg Login Oper Server Dispatch Conn.
From Verif Require Import Rel RelWrite RelInfo RelBase RelChan RelSrv RelInit RelKey RelCmd RelComp WF RelGone Frame Tree RelReg Inv1 Inv2 Inv3 Inv4 Inv5 Spec Observ.
Import ListNotations.

Fixpoint index (x : nat) (l : list nat) : nat := match l with [] => 0 | y :: r => if Nat.eqb x y then 0 else S (index x r) end.
Lemma before_index : forall p l x, In p l -> In x (before p l) -> index x l < index p l.
Proof.
  induction l as [|y l IH]; cbn [before]; intros x Hp Hx; [contradiction|]. cbn [index]. destruct (Nat.eqb_spec p y).
  - rewrite ?e, ?Nat.eqb_refl in Hx. contradiction.
  - unfold heq in Hx. destruct (Nat.eqb_spec y p); [congruence|]. destruct Hp as [Hp|Hp]; [congruence|]. destruct Hx as [Hx|Hx].
    + subst. rewrite Nat.eqb_refl. lia.
    + destruct (Nat.eqb_spec x y); [lia|]. specialize (IH _ Hp Hx). lia.
Qed.
Lemma index_len : forall x l, index x l <= List.length l.
Proof. induction l as [|y l IH]; cbn; auto. destruct (Nat.eqb x y); lia. Qed.

Section Below.
Variables (s : state) (h : handle) (D : list handle).
Hypotheses (T : tree s) (P : part_of h D s) (R : In h (s_clients s) -> In h D) (C : closed D s)
  (Hh : h <> This_Server /\ exists c, assoc h (s_heap s) = Some c).
Lemma below_me : ~ In This_Server D.
Proof using T P Hh. clear R C.
  intro H. destruct (P _ H) as [_ [E|(p & E1 & N & _)]].
  - subst. destruct Hh as (N & _). auto.
  - destruct (tr_me _ T) as (c' & A' & _ & _ & B'). unfold intro_of in E1. rewrite A' in E1. congruence.
Qed.
Lemma below_D : forall x, In x D -> behind s h x.
Proof using T P. clear R C Hh.
  assert (K : forall n x, List.length (s_clients s) - index x (s_clients s) <= n -> In x D -> behind s h x).
  { induction n as [|n IH]; intros x L Hx.
    - destruct (P _ Hx) as [Lx [-> | (p & E1 & N & E2 & S)]]; [constructor|]. exfalso.
      assert (Lp : In p (s_clients s)) by (destruct S as (c & S & _); apply (tr_listed _ T _ _ S)).
      pose proof (before_index _ _ _ Lp (tr_ord _ T _ _ Lx E1 (not_eq_sym N) Lp)). pose proof (index_len p (s_clients s)). unfold handle in *. lia.
    - destruct (P _ Hx) as [Lx [-> | (p & E1 & N & E2 & S)]]; [constructor|].
      assert (Lp : In p (s_clients s)) by (destruct S as (c & S & _); apply (tr_listed _ T _ _ S)).
      pose proof (before_index _ _ _ Lp (tr_ord _ T _ _ Lx E1 (not_eq_sym N) Lp)). pose proof (index_len p (s_clients s)). unfold handle in *.
      unfold intro_of in E1. destruct (assoc x (s_heap s)) as [c|] eqn:Ec; [|discriminate]. eapply behind_step; [|rewrite lookup_assoc; exact Ec|exact E1].
      destruct E2 as [-> | E2]; [constructor|]. apply IH; auto. lia. }
  intros x Hx. eapply K; eauto.
Qed.
Lemma D_below : forall x, behind s h x -> In x D.
Proof using T P R C Hh.
  intros x H. induction H as [|x p c H IH E1 E2].
  - apply R. destruct Hh as (_ & c & A). eapply tr_listed; eauto.
  - rewrite lookup_assoc in E1. destruct (cl_conn c) as [i|] eqn:Ec.
    + destruct (tr_local _ T _ _ _ E1 Ec) as [E|E]; rewrite E in E2; injection E2 as <-; auto. destruct (below_me IH).
    + destruct (Nat.eq_dec x This_Server) as [->|N].
      * destruct (tr_me _ T) as (c' & A' & _ & _ & B'). rewrite A' in E1. injection E1 as <-. rewrite B' in E2. injection E2 as <-. auto.
      * destruct (tr_remote _ T _ _ E1 Ec N) as (p' & cp & A1 & A2 & A3 & A4 & A5). rewrite A1 in E2. injection E2 as <-.
        eapply C; eauto; [exists cp; auto|eapply tr_listed; eauto|]. unfold intro_of. rewrite E1. auto.
Qed.
End Below.

(** what is left after the part of the network behind [h] has been removed *)
Record removed (h : handle) (s s' : state) : Prop := mk_removed {
  rm_clients : forall x, In x (s_clients s') <-> In x (s_clients s) /\ ~ behind s h x;
  rm_data : forall x c, known s x c -> ~ behind s h x -> exists c', known s' x c' /\ same_client c c';
  rm_members : forall m, In m (s_members s') <->
    In m (s_members s) /\ ~ (behind s h (mb_client m) /\ exists c, lookup (mb_client m) (s_heap s) = Some c /\ (cl_type c = T_USER \/ cl_type c = T_SERVICE));
  rm_chans : forall ch c, exists_chan s' ch c <->
    exists_chan s ch c /\ ((exists m, In m (s_members s') /\ mb_chan m = ch) \/ In "P"%char (ch_modes c) \/ forall m, In m (s_members s) -> mb_chan m <> ch) }.

(** the removal of a set of clients, from a state with the same tables as [s] *)
Lemma gone_removed : forall s s0 h c D s', tree s -> whole h D s -> h <> This_Server -> assoc h (s_heap s) = Some c ->
  s_clients s0 = s_clients s -> s_heap s0 = s_heap s -> s_members s0 = s_members s -> s_chans s0 = s_chans s -> s_odd s0 = s_odd s -> gone D s0 s' ->
  removed h s s' /\ s_odd s' = s_odd s.
Proof.
  intros s s0 h c D s' T (P & R & C) NT AH E1 E2 E3 E4 E5 G. specialize (C (tr_ord _ T)).
  assert (Hh : h <> This_Server /\ exists c, assoc h (s_heap s) = Some c) by eauto.
  pose proof (below_me s h D T P Hh) as NM.
  assert (BD : forall x, behind s h x <-> In x D) by (intro x; split; [apply (D_below s h D T P R C Hh)|apply (below_D s h D T P)]).
  assert (MD : forall x, mem D x = true <-> behind s h x) by (intro x; rewrite BD; apply mem_In).
  assert (MDn : forall x, mem D x = false <-> ~ behind s h x) by (intro x; rewrite <- MD; destruct (mem D x); split; congruence).
  assert (UI : forall x, uish s x = true <-> exists c, lookup x (s_heap s) = Some c /\ (cl_type c = T_USER \/ cl_type c = T_SERVICE)).
  { intro x. unfold uish. change (@lookup client) with (@assoc client). split.
    - destruct (assoc x (s_heap s)) as [c0|]; [|discriminate]. intro A. exists c0. split; auto. destruct (cl_type c0); try discriminate; auto.
    - intros (c0 & -> & [-> | ->]); reflexivity. }
  assert (UE : forall x, uish s0 x = uish s x) by (intro; unfold uish; rewrite E2; reflexivity).
  destruct G. rewrite E1 in g_clients. rewrite E2 in g_cli. rewrite E3 in g_members, g_chans. rewrite E4 in g_chans. rewrite E5 in g_odd.
  assert (MEM : forall m, In m (s_members s') <->
    In m (s_members s) /\ ~ (behind s h (mb_client m) /\ exists c, lookup (mb_client m) (s_heap s) = Some c /\ (cl_type c = T_USER \/ cl_type c = T_SERVICE))).
  { intro m. rewrite g_members, In_nofilter, UE, andb_false_iff, MDn. rewrite <- UI. destruct (uish s (mb_client m)); intuition congruence. }
  split; [split; auto|].
    + intro x. rewrite g_clients, In_nofilter, MDn. tauto.
    + intros x cx [L Hx] N. rewrite lookup_assoc in Hx. apply MDn in N. pose proof (g_cli _ N) as A. rewrite Hx in A. destruct (assoc x (s_heap s')) as [cx'|] eqn:Ex; [|destruct A].
      exists cx'. split; [|exact A]. split; [|rewrite lookup_assoc; auto]. rewrite g_clients. apply In_nofilter. auto.
    + intros ch c0. unfold exists_chan. rewrite !lookup_assoc. destruct g_chans as (K & GC & K1 & K2). rewrite GC, assoc_nofilter. split.
      * destruct (K ch) eqn:EK; [discriminate|]. intro Hch. split; auto.
        destruct (List.existsb (fun m => Nat.eqb (mb_chan m) ch && (mem D (mb_client m) && uish s (mb_client m))) (s_members s)) eqn:EX.
        -- apply existsb_exists in EX. destruct EX as (m & Hm & EX). apply andb_true_iff in EX. destruct EX as [EX1 EX2]. apply Nat.eqb_eq in EX1. subst ch.
           rewrite <- UE in EX2. destruct (K2 _ Hm EX2) as [K3|[(c1 & K3 & K4)|K3]]; [congruence| |auto]. right. left. apply memb_In. congruence.
        -- destruct (List.existsb (fun m => Nat.eqb (mb_chan m) ch) (s_members s')) eqn:EY.
           ++ apply existsb_exists in EY. destruct EY as (m & Hm & EY). apply Nat.eqb_eq in EY. left. eauto.
           ++ right. right. intros m Hm Em. apply Bool.not_true_iff_false in EX. apply Bool.not_true_iff_false in EY. apply EY. apply existsb_exists. exists m. split; [|apply Nat.eqb_eq; auto].
              rewrite g_members. apply In_nofilter. split; auto. rewrite UE. destruct (_ && _) eqn:Z; auto. exfalso. apply EX. apply existsb_exists. exists m. split; auto. rewrite Z. rewrite andb_true_r. apply Nat.eqb_eq. auto.
      * intros [Hch Or]. destruct (K ch) eqn:EK; auto. exfalso. destruct (K1 _ EK) as ((m & M1 & M2 & M3) & M4 & M5). specialize (M5 _ Hch). destruct Or as [(m' & A & B)|[A|A]].
        -- exact (M4 _ A B).
        -- apply memb_In in A. congruence.
        -- exact (A _ M1 M2).
    + destruct g_odd as (_ & A & _). apply A. apply MDn. intro B. apply BD in B. contradiction.
Qed.
Lemma wf2_close_removed : forall i log fwd inform s s' cn, tree s -> wf2 s -> assoc i (s_conns s) = Some cn ->
  Conn_Close i log fwd inform s = Ok tt s' ->
  exists h c, co_client cn = Some h /\ known s h c /\ cl_conn c = Some i /\ removed h s s' /\
    (forall j, j <> i -> (assoc j (s_conns s') = None <-> assoc j (s_conns s) = None)) /\ assoc i (s_conns s') = None /\
    s_glines s' = s_glines s /\ s_klines s' = s_klines s /\ s_conf s' = s_conf s /\ s_odd s' = s_odd s.
Proof.
  intros i log fwd inform s s' cn T [W [O _]] Hc H.
  destruct (Conn_Close_ok _ _ _ _ _ _ _ H W) as (cn' & E & K). replace cn' with cn in * by congruence. clear E. destruct (O _ _ Hc) as [Oo Oc].
  destruct K as [[K _]|(_ & _ & _ & D & sv & G & _ & Wh)]; [congruence|].
  destruct (tr_c2h _ T _ _ Hc) as (h & c & E1 & E2 & E3). rewrite E1 in Wh.
  assert (NT : h <> This_Server) by (intros ->; destruct (tr_me _ T) as (c' & A' & _ & B' & _); congruence).
  destruct (gone_removed s (dropc i sv s) h c D s' T Wh NT E2) as [RM OD]; auto.
  destruct G. unfold dropc in *. cbn [s_members s_heap s_conns s_clients s_chans set_s_conns set_s_numconn set_s_servers s_conf s_now s_next s_chnext s_numconn s_glines s_klines s_servers s_odd s_sigquit] in *.
  exists h, c. split; auto. split. { split; [eapply tr_listed; eauto|rewrite lookup_assoc; auto]. } split; auto. split; [exact RM|repeat split].
  - intro A. pose proof (g_con j) as Q. rewrite A in Q. rewrite assoc_adel in Q. destruct (Nat.eqb_spec j i); [congruence|]. destruct (assoc j (s_conns s)); [destruct Q|auto].
  - intro A. pose proof (g_con j) as Q. rewrite assoc_adel in Q. destruct (Nat.eqb_spec j i); [congruence|]. rewrite A in Q. destruct (assoc j (s_conns s')); [destruct Q|auto].
  - pose proof (g_con i) as Q. rewrite assoc_adel, Nat.eqb_refl in Q. destruct (assoc i (s_conns s')); [destruct Q|auto].
  - auto.
  - auto.
  - auto.
  - exact OD.
Qed.
Lemma close_removed : forall i log fwd inform s s' cn, reachable s -> undisturbed s -> assoc i (s_conns s) = Some cn ->
  Conn_Close i log fwd inform s = Ok tt s' ->
  exists h c, co_client cn = Some h /\ known s h c /\ cl_conn c = Some i /\ removed h s s' /\
    (forall j, j <> i -> (assoc j (s_conns s') = None <-> assoc j (s_conns s) = None)) /\ assoc i (s_conns s') = None /\
    s_glines s' = s_glines s /\ s_klines s' = s_klines s /\ s_conf s' = s_conf s /\ s_odd s' = s_odd s.
Proof. intros i log fwd inform s s' cn Re U Hc H. eapply wf2_close_removed; eauto; [exact (reachable_itree _ Re U)|exact (reachable_wf2 _ Re)]. Qed.

(** the events that end a connection *)
Theorem lost_removed : forall e i s s' cn, reachable s -> undisturbed s -> assoc i (s_conns s) = Some cn -> e = E_WriteError i \/ ((e = E_ReadError i \/ e = E_Data i []) /\ can_read (s_now s) cn = true) ->
  step e s = Ok tt s' -> exists h c, known s h c /\ cl_conn c = Some i /\ removed h s s' /\ assoc i (s_conns s') = None /\ (forall j, j <> i -> (assoc j (s_conns s') = None <-> assoc j (s_conns s) = None)).
Proof.
  intros e i s s' cn R U Hc He H. pose proof (proj2 (reachable_wf2 _ R)) as [O _].
  assert (exists log fwd inform, Conn_Close i log fwd inform s = Ok tt s') as (log & fwd & inform & HC).
  { destruct He as [-> | [[-> | ->] Rd]]; cbn [step] in H.
    - unfold is_open in H. bd H as b s1 H1. bd H1 as c s2 H2. apply con_ok in H2. destruct H2 as [-> H2]. apply ret_ok in H1. destruct H1 as [-> ->].
      assert (co_open c = true) by (destruct H2 as [H2|[H2 _]]; [|congruence]; rewrite Hc in H2; injection H2 as <-; apply (O _ _ Hc)). rewrite H0 in H. cbn [whenM] in H. eauto.
    - bd H as c s1 H1. apply con_ok in H1. destruct H1 as [-> H1]. assert (c = cn) by (destruct H1 as [H1|[H1 _]]; congruence). subst c. bd H as t s1 H2. unfold now in H2. rdgets H2. rewrite Rd in H. cbn [whenM] in H. eauto.
    - bd H as c s1 H1. apply con_ok in H1. destruct H1 as [-> H1]. assert (c = cn) by (destruct H1 as [H1|[H1 _]]; congruence). subst c. bd H as t s1 H2. unfold now in H2. rdgets H2. rewrite Rd in H.
      cbn [whenM andb List.length] in H. replace (0 <=? READBUFFER_LEN) with true in H by reflexivity. cbn [whenM] in H. unfold Read_Data in H.
      bd H as c s1 H2. apply con_ok in H2. destruct H2 as [-> H2]. assert (c = cn) by (destruct H2 as [H2|[H2 _]]; congruence). subst c. bd H as u s1 H3. apply assertM_ok in H3. destruct H3 as [_ ->].
      destruct (READBUFFER_LEN <=? List.length (co_rbuf cn)); eauto. }
  destruct (close_removed _ _ _ _ _ _ _ R U Hc HC) as (h & c & A1 & A2 & A3 & A4 & A5 & A6 & _). exists h, c. auto.
Qed.

(** ---- limits ---- *)
Definition under (s : state) : Prop :=
  ((0 < cf_maxconn (s_conf s))%Z -> (s_numconn s <= cf_maxconn (s_conf s))%Z) /\
  ((0 < cf_maxconnip (s_conf s))%Z -> forall ip, (Z.of_nat (from_ip ip s) <= cf_maxconnip (s_conf s))%Z).
Lemma under_step : forall e s s', incoming e -> reachable s -> step e s = Ok tt s' -> under s -> under s'.
Proof.
  intros e s s' I R H [U1 U2]. pose proof (step_conf _ _ _ H (reachable_wf _ R)) as EC. pose proof (reachable_wf2 _ R) as W.
  destruct (opens e) eqn:O.
  2: { destruct (step_fewer _ _ _ O W H) as [A B]. unfold under. rewrite EC. split; [lia|]. intros P ip. specialize (U2 P ip). specialize (B ip). lia. }
  destruct e; try discriminate O; [|destruct I]. cbn [step] in H. unfold unused in H. bd H as b s1 H1. rdgets H1. destruct (is_some (assoc i (s_conns s))) eqn:NI; cbn [whenM negb] in H; [apply ret_ok in H; destruct H as [_ ->]; split; auto|].
  destruct (wf_fresh _ (proj1 W)) as [F1 F2]. destruct (New_Connection_ok _ _ _ _ _ H F1 F2) as [(msg & -> & _)|(c & a & b & m & x & _ & L1 & L2 & _ & Wr)]; [split; auto|].
  destruct (wr_same _ _ Wr). unfold under. rewrite w_conf, w_numconn. cbn [s_conf s_numconn opened set_s_servers set_s_accepted set_s_numconnmax set_s_numconn set_s_conns set_s_maxusers set_s_mymaxusers set_s_clients with_new]. split.
  - intro P. change (s_numconn s + 1 <= cf_maxconn (s_conf s))%Z. change (0 < cf_maxconn (s_conf s))%Z in P. lia.
  - intros P ip0. change (0 < cf_maxconnip (s_conf s))%Z in P. change (Z.of_nat (from_ip ip0 s') <= cf_maxconnip (s_conf s))%Z. specialize (U2 P).
    match type of Wr with wr ?q _ => set (s2 := q) in * end.
    assert (E : from_ip ip0 s' = from_ip ip0 s2).
    { unfold from_ip. destruct (wr_tabs _ _ Wr). apply from_ip_eq; auto.
      - subst s2. cbn. constructor; [|apply (wf_conns _ (proj1 W))]. apply assoc_nokey. destruct (assoc i (s_conns s)); [discriminate|auto].
      - intro k. eapply orel_imp; [|apply wt_con]. intros u v (A1 & A2 & A3 & A4 & _). repeat split; auto. }
    rewrite E. unfold from_ip, s2. cbn [s_conns opened set_s_servers set_s_accepted set_s_numconnmax set_s_numconn set_s_conns set_s_maxusers set_s_mymaxusers set_s_clients filter snd].
    specialize (U2 ip0). unfold from_ip in U2. cbn [co_open co_ip open_conn set_co_connecting set_co_client set_co_host set_co_ip set_co_open closed_conn andb].
    destruct (beq ip ip0) eqn:Eq.
    + apply beq_eq in Eq. subst ip0. cbn [List.length]. lia.
    + exact U2.
Qed.
Lemma under_run : forall l s s', (forall e, In e l -> incoming e) -> reachable s -> run l s = Ok tt s' -> under s -> under s' /\ reachable s'.
Proof.
  induction l as [|e l IH]; intros s s' I R H U; unfold run in H; cbn [mfor] in H.
  - apply ret_ok in H. destruct H as [_ ->]. auto.
  - bd H as u s1 H1. destruct u. eapply IH; [|eapply R_step; eauto|exact H|eapply under_step; eauto]; intros; apply I; [right; auto|left; auto].
Qed.
Lemma wf2_init : forall c sv t r, wf2 (init_state c sv t r).
Proof. intros. split; [apply wf_init|]. split; cbn; [discriminate|reflexivity]. Qed.
Lemma under_boot : forall c sv t r s, boot c sv t r = Ok tt s -> under s.
Proof.
  intros c sv t r s H. unfold boot in H. assert (R : rel fewer Channel_InitPredefined) by rel_auto. destruct (R _ _ _ H (wf2_init _ _ _ _)) as (_ & A & B). split.
  - intro. change (s_numconn (init_state c sv t r)) with 0%Z in A. lia.
  - intros P ip. specialize (B ip). change (from_ip ip (init_state c sv t r)) with 0 in B. lia.
Qed.
Lemma In_assoc : forall A k (a : A) l, NoDup (map fst l) -> In (k, a) l -> assoc k l = Some a.
Proof.
  induction l as [|[k' b] l IH]; cbn; intros N H; [contradiction|]. inversion N; subst. destruct H as [H|H].
  - injection H as -> ->. rewrite Nat.eqb_refl. auto.
  - destruct (Nat.eqb_spec k k'); auto. subst. exfalso. apply H2. apply in_map_iff. exists (k', a). auto.
Qed.
Lemma from_ip_spec : forall ip s, wf2 s -> connections_from ip s = from_ip ip s.
Proof.
  intros ip s [W [O _]]. unfold connections_from, from_ip. f_equal. apply filter_ext_in. intros [j c] Hc. cbn [snd].
  destruct (O j c (In_assoc _ _ _ _ (wf_conns _ W) Hc)) as [-> _]. cbn [andb]. destruct (list_eq_dec ascii_dec (co_ip c) ip) as [->|N]; [rewrite beq_refl; auto|].
  symmetry. apply beq_neq. auto.
Qed.
Theorem limits_ok : forall c sv t r s0 l s, conf_ok c -> boot c sv t r = Ok tt s0 -> (forall e, In e l -> incoming e) -> run l s0 = Ok tt s ->
  ((0 < cf_maxconn c)%Z -> (Z.of_nat (connections s) <= cf_maxconn c)%Z) /\
  ((0 < cf_maxconnip c)%Z -> forall ip, (Z.of_nat (connections_from ip s) <= cf_maxconnip c)%Z).
Proof.
  intros c sv t r s0 l s K B I H. assert (R0 : reachable s0) by (eapply R_boot; eauto). destruct (under_run _ _ _ I R0 H (under_boot _ _ _ _ _ B)) as [[U1 U2] R].
  assert (EC : s_conf s = c).
  { clear U1 U2 I. pose proof (boot_conf _ _ _ _ _ B) as E. clear B R. revert s0 R0 H E. induction l as [|e l IH]; intros s0 R0 H E; unfold run in H; cbn [mfor] in H.
    - apply ret_ok in H. destruct H as [_ ->]. auto.
    - bd H as u s1 H1. destruct u. eapply IH; [eapply R_step; eauto|exact H|]. rewrite (step_conf _ _ _ H1 (reachable_wf _ R0)). auto. }
  rewrite EC in *. pose proof (reachable_wf2 _ R) as W. split.
  - intro P. unfold connections. rewrite <- (proj2 (proj2 W)). auto.
  - intros P ip. rewrite from_ip_spec; auto.
Qed.
