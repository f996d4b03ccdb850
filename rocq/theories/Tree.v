(** Invariants of all reachable states, part 2: the tree of the network.  As long as no peer has
    made the server forget an established link or itself (see [oddity] in State.v), every client
    structure is listed, connections and local clients correspond to each other, and every remote
    client hangs below a known server that was introduced before. *)
From Coq Require Import List Ascii String ZArith NArith Bool Lia.
From Coq Require Import Relations RelationClasses.
From Verif Require Import Bytes Strl Match Lists Hash ParseReq State Messages Monad Core Write Info Chan Mode Msg Login Oper Server Dispatch Conn Rel RelWrite RelInfo RelBase RelChan RelSrv RelInit RelKey RelCmd RelComp WF RelGone Frame.
Import ListNotations.
Local Open Scope m_scope.

Definition norm (s : state) : Prop := ~ In O_Retype (s_odd s) /\ ~ In O_Self (s_odd s).
Record tree (s : state) : Prop := mk_tree {
  tr_me : exists c, assoc This_Server (s_heap s) = Some c /\ cl_type c = T_SERVER /\ cl_conn c = None /\ cl_introducer c = Some This_Server;
  tr_listed : forall h c, assoc h (s_heap s) = Some c -> In h (s_clients s);
  tr_c2h : forall i cn, assoc i (s_conns s) = Some cn -> exists h c, co_client cn = Some h /\ assoc h (s_heap s) = Some c /\ cl_conn c = Some i;
  tr_h2c : forall h c i, assoc h (s_heap s) = Some c -> cl_conn c = Some i -> exists cn, assoc i (s_conns s) = Some cn /\ co_client cn = Some h;
  tr_local : forall h c i, assoc h (s_heap s) = Some c -> cl_conn c = Some i -> cl_introducer c = Some This_Server \/ cl_introducer c = Some h;
  tr_remote : forall h c, assoc h (s_heap s) = Some c -> cl_conn c = None -> h <> This_Server ->
    exists p cp, cl_introducer c = Some p /\ p <> h /\ p <> This_Server /\ assoc p (s_heap s) = Some cp /\ cl_type cp = T_SERVER;
  tr_ord : ordered s }.
Definition itree (s : state) : Prop := norm s -> tree s.

Lemma norm_incl : forall s s', incl (s_odd s) (s_odd s') -> norm s' -> norm s.
Proof. intros s s' I [A B]. split; intro H; [apply A|apply B]; auto. Qed.
Lemma norm_fodd : forall s s', fodd s s' -> norm s' -> norm s.
Proof. intros s s' E H. unfold norm in *. rewrite <- E. auto. Qed.

(** what matters for the tree *)
Definition ctree (c c' : client) : Prop := cl_conn c' = cl_conn c /\ cl_introducer c' = cl_introducer c /\ (cl_type c = T_SERVER -> cl_type c' = T_SERVER).
Lemma ctree_same : forall c c', cl_same c c' -> ctree c c'.
Proof. intros c c' [x ->]. repeat split. auto. Qed.
Lemma tree_cli : forall s s', map fst (s_heap s') = map fst (s_heap s) -> s_clients s' = s_clients s ->
  (forall h, orel ctree (assoc h (s_heap s)) (assoc h (s_heap s'))) -> fconn s s' -> tree s -> tree s'.
Proof.
  intros s s' K L R [_ C _] []. 
  assert (F : forall h c', assoc h (s_heap s') = Some c' -> exists c, assoc h (s_heap s) = Some c /\ ctree c c').
  { intros h c' H. specialize (R h). rewrite H in R. destruct (assoc h (s_heap s)) as [c|]; [|destruct R]. eauto. }
  assert (G : forall h c, assoc h (s_heap s) = Some c -> exists c', assoc h (s_heap s') = Some c' /\ ctree c c').
  { intros h c H. specialize (R h). rewrite H in R. destruct (assoc h (s_heap s')) as [c'|]; [|destruct R]. eauto. }
  split.
  - destruct tr_me0 as (c & H & A1 & A2 & A3). destruct (G _ _ H) as (c' & H' & B1 & B2 & B3). exists c'. rewrite B1, B2. auto.
  - intros h c' H. destruct (F _ _ H) as (c & Hc & _). rewrite L. eauto.
  - intros i cn' H. specialize (C i). rewrite H in C. destruct (assoc i (s_conns s)) as [cn|] eqn:E; [|destruct C]. destruct C as (_ & _ & C & _).
    destruct (tr_c2h0 _ _ E) as (h & c & A1 & A2 & A3). destruct (G _ _ A2) as (c' & H' & B1 & _). exists h, c'. rewrite C, B1. auto.
  - intros h c' i H Hi. destruct (F _ _ H) as (c & Hc & B1 & _). rewrite B1 in Hi. destruct (tr_h2c0 _ _ _ Hc Hi) as (cn & A1 & A2).
    specialize (C i). rewrite A1 in C. destruct (assoc i (s_conns s')) as [cn'|] eqn:E; [|destruct C]. destruct C as (_ & _ & C & _). exists cn'. rewrite C. auto.
  - intros h c' i H Hi. destruct (F _ _ H) as (c & Hc & B1 & B2 & _). rewrite B1 in Hi. rewrite B2. eauto.
  - intros h c' H Hi N. destruct (F _ _ H) as (c & Hc & B1 & B2 & _). rewrite B1 in Hi. destruct (tr_remote0 _ _ Hc Hi N) as (p & cp & A1 & A2 & A3 & A4 & A5).
    destruct (G _ _ A4) as (cp' & Hp & _ & _ & Ht). exists p, cp'. rewrite B2. auto 6.
  - intros x p Hx Hp Hn Hpl. rewrite L in *. apply tr_ord0; auto. revert Hp. unfold intro_of. specialize (R x). destruct (assoc x (s_heap s)), (assoc x (s_heap s')); try contradiction; auto.
    destruct R as (_ & -> & _). auto.
Qed.
Lemma tree_set : forall h f c s, assoc h (s_heap s) = Some c -> ctree c (f c) -> tree s -> tree (set_cli h f s).
Proof.
  intros h f c s Hc Hf T. apply (tree_cli s); [| | | |assumption].
  - unfold set_cli. cbn [s_heap set_s_heap]. apply aupd_keys.
  - reflexivity.
  - intro x. unfold set_cli. cbn [s_heap set_s_heap]. rewrite assoc_aupd. destruct (Nat.eqb_spec h x); [|apply orel_refl; intro; repeat split; auto].
    subst x. rewrite Hc. cbn. auto.
  - fr_triv.
Qed.
Lemma tree_frame : forall s s', fheap s s' -> fconn s s' -> tree s -> tree s'.
Proof. intros s s' [] C T. eapply tree_cli; eauto. intro h. eapply orel_imp; [apply ctree_same|]. auto. Qed.
Lemma tree_other : forall s s', s_heap s' = s_heap s -> s_clients s' = s_clients s -> s_conns s' = s_conns s -> tree s -> tree s'.
Proof.
  intros s s' E1 E2 E3 []. split; rewrite ?E1, ?E2, ?E3; auto. unfold ordered, intro_of in *. rewrite E1, E2. auto.
Qed.
(** a new client with the introducer [p] *)
Lemma tree_new : forall s s' c, wf s -> tree s -> s_heap s' = (s_next s, c) :: s_heap s -> s_clients s' = s_next s :: s_clients s ->
  (cl_conn c = None -> s_conns s' = s_conns s /\ exists p cp, cl_introducer c = Some p /\ p <> This_Server /\ assoc p (s_heap s) = Some cp /\ cl_type cp = T_SERVER) ->
  (forall i, cl_conn c = Some i -> (cl_introducer c = Some This_Server \/ cl_introducer c = Some (s_next s)) /\ assoc i (s_conns s) = None /\
     exists cn, s_conns s' = (i, cn) :: s_conns s /\ co_client cn = Some (s_next s)) -> tree s'.
Proof.
  intros s s' c W T E1 E2 HN HS. destruct (wf_fresh _ W) as [F1 F2]. destruct T.
  assert (A : forall h, h <> s_next s -> assoc h (s_heap s') = assoc h (s_heap s)).
  { intros h Hh. rewrite E1. cbn. destruct (Nat.eqb_spec h (s_next s)); [congruence|auto]. }
  assert (A0 : assoc (s_next s) (s_heap s') = Some c) by (rewrite E1; cbn; rewrite Nat.eqb_refl; auto).
  assert (F : forall h c', assoc h (s_heap s) = Some c' -> h <> s_next s) by (intros h c' H ->; apply F1; eapply assoc_key; eauto).
  assert (FM : This_Server <> s_next s) by (destruct tr_me0 as (c0 & H & _); eauto).
  assert (CC : forall i cn, assoc i (s_conns s) = Some cn -> assoc i (s_conns s') = Some cn).
  { intros i cn H. destruct (cl_conn c) as [j|] eqn:Ec.
    - destruct (HS j eq_refl) as (_ & Hj & cn' & -> & _). cbn. destruct (Nat.eqb_spec i j); [congruence|auto].
    - destruct (HN eq_refl) as (-> & _). auto. }
  split.
  - destruct tr_me0 as (c0 & H & X). exists c0. rewrite A; auto.
  - intros h c' H. rewrite E2. destruct (Nat.eq_dec h (s_next s)); [left; auto|]. right. rewrite A in H by auto. eauto.
  - intros i cn H. assert (O : assoc i (s_conns s) = Some cn -> exists h c0, co_client cn = Some h /\ assoc h (s_heap s') = Some c0 /\ cl_conn c0 = Some i).
    { intro H1. destruct (tr_c2h0 _ _ H1) as (h & c0 & X1 & X2 & X3). exists h, c0. rewrite A; eauto. }
    destruct (cl_conn c) as [j|] eqn:Ec.
    + destruct (HS j eq_refl) as (_ & Hj & cn' & E & Ecn). rewrite E in H. cbn in H. destruct (Nat.eqb_spec i j); auto. inversion H; subst. exists (s_next s), c. auto.
    + destruct (HN eq_refl) as (E & _). rewrite E in H. auto.
  - intros h c' i H Hi. destruct (Nat.eq_dec h (s_next s)) as [->|N].
    + rewrite A0 in H. inversion H; subst c'. destruct (HS i Hi) as (_ & Hj & cn & E & Ecn). exists cn. rewrite E. cbn. rewrite Nat.eqb_refl. auto.
    + rewrite A in H by auto. destruct (tr_h2c0 _ _ _ H Hi) as (cn & X1 & X2). exists cn. auto.
  - intros h c' i H Hi. destruct (Nat.eq_dec h (s_next s)) as [->|N].
    + rewrite A0 in H. inversion H; subst c'. apply (HS i Hi).
    + rewrite A in H by auto. eauto.
  - intros h c' H Hi Nt. destruct (Nat.eq_dec h (s_next s)) as [->|N].
    + rewrite A0 in H. inversion H; subst c'. destruct (HN Hi) as (_ & p & cp & X1 & X2 & X3 & X4). exists p, cp. rewrite A by eauto. split; auto. split; eauto.
    + rewrite A in H by auto. destruct (tr_remote0 _ _ H Hi Nt) as (p & cp & X1 & X2 & X3 & X4 & X5). exists p, cp. rewrite A by eauto. auto 6.
  - intros x p Hx Hp Hn Hpl. rewrite E2 in Hx, Hpl |- *. cbn. destruct (heq (s_next s) p) eqn:Ep.
    + apply Nat.eqb_eq in Ep. subst p. exfalso. destruct Hx as [<- | Hx]; [congruence|]. assert (Nx : x <> s_next s) by congruence.
      unfold intro_of in Hp. rewrite A in Hp by auto. destruct (assoc x (s_heap s)) as [cx|] eqn:Ex; [|discriminate].
      destruct (cl_conn cx) as [i|] eqn:Ei. { destruct (tr_local0 _ _ _ Ex Ei) as [E|E]; congruence. }
      destruct (Nat.eq_dec x This_Server) as [->|Nt]. { destruct tr_me0 as (c0 & X1 & _ & _ & X2). congruence. }
      destruct (tr_remote0 _ _ Ex Ei Nt) as (p & cp & X1 & _ & _ & X2 & _). assert (p = s_next s) by congruence. subst. eapply F; eauto.
    + destruct Hx as [<- | Hx]; [left; auto|]. right. apply tr_ord0; auto.
      * unfold intro_of in *. rewrite A in Hp; auto. intros ->. auto.
      * destruct Hpl as [<- |]; auto. unfold heq in Ep. rewrite Nat.eqb_refl in Ep. discriminate.
Qed.
(** the clients that disappear with [h]: no other local client *)
Lemma gone_keep : forall D s s' x, gone D s s' -> ~ In x D -> orel cl_same (assoc x (s_heap s)) (assoc x (s_heap s')).
Proof. intros D s s' x G N. apply (g_cli _ _ _ _ _ G). apply not_true_iff_false. rewrite mem_In. auto. Qed.
Lemma gone_dead : forall D s s' x, gone D s s' -> In x D -> assoc x (s_heap s') = None.
Proof.
  intros D s s' x G I. apply assoc_nokey. intro H0. pose proof (eq_ind _ (In x) H0 _ (g_keys _ _ _ _ _ G)) as H. apply In_nofilter in H. destruct H as [_ H]. apply mem_In in I. congruence.
Qed.
Lemma whole_local : forall h D s x c i, tree s -> part_of h D s -> ~ In This_Server D -> (h = This_Server -> In h D) -> In x D -> assoc x (s_heap s) = Some c -> cl_conn c = Some i -> x = h.
Proof.
  intros h D s x c i T P N Hh Ix Hc Hi. destruct (P x Ix) as [_ [|(p & E1 & E2 & E3 & E4)]]; auto. exfalso. unfold intro_of in E1. rewrite Hc in E1.
  destruct (tr_local _ T _ _ _ Hc Hi) as [E|E]; [|congruence]. assert (p = This_Server) by congruence. subst p. destruct E3 as [E3|E3]; auto. apply N. rewrite E3. apply Hh. auto.
Qed.
(** removal of a part of the tree *)
Lemma tree_gone : forall h D s s', wf s -> tree s -> gone D s s' -> whole h D s -> ~ In This_Server D -> In h (s_clients s) ->
  (forall c, assoc h (s_heap s) = Some c -> cl_conn c = None) -> tree s'.
Proof.
  intros h D s s' W T G (P & Hh & Cl) NT Hl Hn. assert (Cl' := Cl (tr_ord _ T)).
  assert (NL : forall x c i, In x D -> assoc x (s_heap s) = Some c -> cl_conn c = Some i -> False).
  { intros x c i Ix Hc Hi. assert (x = h) by (eapply whole_local; eauto). subst x. rewrite (Hn c Hc) in Hi. discriminate. }
  assert (F : forall x c', assoc x (s_heap s') = Some c' -> ~ In x D /\ exists c, assoc x (s_heap s) = Some c /\ cl_same c c').
  { intros x c' H. assert (N : ~ In x D) by (intro I; rewrite (gone_dead _ _ _ _ G I) in H; discriminate). split; auto.
    pose proof (gone_keep _ _ _ _ G N) as K. rewrite H in K. destruct (assoc x (s_heap s)) as [c|]; [|destruct K]. eauto. }
  assert (B : forall x c, assoc x (s_heap s) = Some c -> ~ In x D -> exists c', assoc x (s_heap s') = Some c' /\ cl_same c c').
  { intros x c H N. pose proof (gone_keep _ _ _ _ G N) as K. rewrite H in K. destruct (assoc x (s_heap s')) as [c'|]; [|destruct K]. eauto. }
  assert (FC := fconn_gone3 _ _ _ _ _ G). destruct FC as [_ FC _]. destruct T. split.
  - destruct tr_me0 as (c & H & A1 & A2 & A3). destruct (B _ _ H NT) as (c' & H' & y & ->). eexists. split; [exact H'|]. auto.
  - intros x c' H. destruct (F _ _ H) as (N & c & Hc & _). apply (gone_In _ _ _ _ G). eauto.
  - intros i cn' H. specialize (FC i). rewrite H in FC. destruct (assoc i (s_conns s)) as [cn|] eqn:E; [|destruct FC]. destruct FC as (_ & _ & C & _).
    destruct (tr_c2h0 _ _ E) as (x & c & A1 & A2 & A3). assert (N : ~ In x D) by (intro I; eapply NL; eauto). destruct (B _ _ A2 N) as (c' & H' & y & ->). exists x. eexists. rewrite C. split; [exact A1|]. split; [exact H'|exact A3].
  - intros x c' i H Hi. destruct (F _ _ H) as (N & c & Hc & y & ->). cbn in Hi. destruct (tr_h2c0 _ _ _ Hc Hi) as (cn & A1 & A2).
    specialize (FC i). rewrite A1 in FC. destruct (assoc i (s_conns s')) as [cn'|] eqn:E; [|destruct FC]. destruct FC as (_ & _ & C & _). exists cn'. rewrite C. auto.
  - intros x c' i H Hi. destruct (F _ _ H) as (N & c & Hc & y & ->). cbn in *. eauto.
  - intros x c' H Hi Nx. destruct (F _ _ H) as (N & c & Hc & y & ->). cbn in *. destruct (tr_remote0 _ _ Hc Hi Nx) as (p & cp & A1 & A2 & A3 & A4 & A5).
    assert (Np : ~ In p D). { intro I. apply N. eapply (Cl' x p); eauto. - exists cp; auto. - unfold intro_of. rewrite Hc. auto. }
    destruct (B _ _ A4 Np) as (cp' & Hp & z & ->). exists p. eexists. split; [exact A1|]. split; auto. split; auto. split; [exact Hp|]. auto.
  - eapply gone_ordered; eauto.
Qed.
(** closing the connection of a client *)
Lemma tree_dropc : forall i sv cn h D s s', wf s -> tree s -> assoc i (s_conns s) = Some cn -> co_client cn = Some h -> gone D (dropc i sv s) s' -> whole h D s ->
  ~ In This_Server D -> tree s'.
Proof.
  intros i sv cn h D s s' W T Hcn Ecn G (P & Hh & Cl) NT. assert (Cl' := Cl (tr_ord _ T)).
  destruct (tr_c2h _ T _ _ Hcn) as (h0 & ch & E0 & Hch & Hi0). assert (h0 = h) by congruence. subst h0. assert (Hl := tr_listed _ T _ _ Hch). specialize (Hh Hl).
  assert (NL : forall x c j, In x D -> assoc x (s_heap s) = Some c -> cl_conn c = Some j -> j = i).
  { intros x c j Ix Hc Hi. assert (x = h) by (eapply whole_local; eauto). subst x. congruence. }
  assert (F : forall x c', assoc x (s_heap s') = Some c' -> ~ In x D /\ exists c, assoc x (s_heap s) = Some c /\ cl_same c c').
  { intros x c' H. assert (N : ~ In x D) by (intro I; rewrite (gone_dead _ _ _ _ G I) in H; discriminate). split; auto.
    pose proof (gone_keep _ _ _ _ G N) as K. change (s_heap (dropc i sv s)) with (s_heap s) in K. rewrite H in K. destruct (assoc x (s_heap s)) as [c|]; [|destruct K]. eauto. }
  assert (B : forall x c, assoc x (s_heap s) = Some c -> ~ In x D -> exists c', assoc x (s_heap s') = Some c' /\ cl_same c c').
  { intros x c H N. pose proof (gone_keep _ _ _ _ G N) as K. change (s_heap (dropc i sv s)) with (s_heap s) in K. rewrite H in K. destruct (assoc x (s_heap s')) as [c'|]; [|destruct K]. eauto. }
  assert (FC := fconn_gone3 _ _ _ _ _ G). destruct FC as [_ FC _]. unfold dropc in FC. cbn [s_conns set_s_servers set_s_numconn set_s_conns] in FC. destruct T. split.
  - destruct tr_me0 as (c & H & A1 & A2 & A3). destruct (B _ _ H NT) as (c' & H' & y & ->). eexists. split; [exact H'|]. auto.
  - intros x c' H. destruct (F _ _ H) as (N & c & Hc & _). apply (gone_In _ _ _ _ G). split; auto. change (In x (s_clients s)). eauto.
  - intros j cn' H. specialize (FC j). rewrite H, assoc_adel in FC. destruct (Nat.eqb_spec j i); [destruct FC|]. destruct (assoc j (s_conns s)) as [cn0|] eqn:E; [|destruct FC]. destruct FC as (_ & _ & C & _).
    destruct (tr_c2h0 _ _ E) as (x & c & A1 & A2 & A3). assert (N : ~ In x D) by (intro I; apply n; eapply NL; eauto). destruct (B _ _ A2 N) as (c' & H' & y & ->). exists x. eexists. rewrite C. split; [exact A1|]. split; [exact H'|exact A3].
  - intros x c' j H Hi. destruct (F _ _ H) as (N & c & Hc & y & ->). cbn in Hi. destruct (tr_h2c0 _ _ _ Hc Hi) as (cn0 & A1 & A2).
    specialize (FC j). rewrite assoc_adel, A1 in FC. destruct (Nat.eqb_spec j i). { subst j. exfalso. apply N. assert (x = h) by congruence. subst x. exact Hh. }
    destruct (assoc j (s_conns s')) as [cn'|] eqn:E; [|destruct FC]. destruct FC as (_ & _ & C & _). exists cn'. rewrite C. auto.
  - intros x c' j H Hi. destruct (F _ _ H) as (N & c & Hc & y & ->). cbn in *. eauto.
  - intros x c' H Hi Nx. destruct (F _ _ H) as (N & c & Hc & y & ->). cbn in *. destruct (tr_remote0 _ _ Hc Hi Nx) as (p & cp & A1 & A2 & A3 & A4 & A5).
    assert (Np : ~ In p D). { intro I. apply N. eapply (Cl' x p); eauto. - exists cp; auto. - unfold intro_of. rewrite Hc. auto. }
    destruct (B _ _ A4 Np) as (cp' & Hp & z & ->). exists p. eexists. split; [exact A1|]. split; auto. split; auto. split; [exact Hp|]. auto.
  - eapply gone_ordered; [exact G|exact tr_ord0].
Qed.
Lemma NextHop_local : forall h c i s x s', tree s -> assoc h (s_heap s) = Some c -> cl_conn c = Some i -> Client_NextHop h s = Ok x s' -> x = h.
Proof.
  intros h c i s x s' T Hc Hi H. unfold Client_NextHop in H. bd H as n s1 H1. rdgets H1. cbn [NextHop] in H.
  bd H as c1 s1 H1. rdcli H1. assert (c1 = c) by congruence. subst c1. destruct (tr_local _ T _ _ _ Hc Hi) as [E | E]; rewrite E in H.
  - unfold heq in H at 2. rewrite Nat.eqb_refl, orb_true_r in H. apply ret_ok in H. tauto.
  - unfold heq in H at 1. rewrite Nat.eqb_refl in H. apply ret_ok in H. tauto.
Qed.
Lemma norm_gone : forall D s s', gone D s s' -> norm s' -> norm s /\ ~ In This_Server D.
Proof.
  intros D s s' G N. destruct (g_odd _ _ _ _ _ G) as (A & B & C). split; [eapply norm_incl; eauto|]. intro I. apply mem_In in I. apply N. auto.
Qed.

(** ---- all changes preserve the tree ---- *)
#[export] Instance itree_wr : WrSub (also wf2 itree).
Proof.
  apply also_wr; [exact _|]. intros s s' H _ T N. assert (W : wr s s') by (apply rt_step; auto). eapply tree_frame; [apply fheap_wr|apply fconn_wr|apply T]; auto. eapply norm_fodd; [apply fodd_wr|]; eauto.
Qed.
Lemma itree_frame : forall l, tconn l = false -> theap l = false -> l <> L_newlocal -> PS l (pres wf2) -> PS l (also wf2 itree).
Proof.
  intros l T1 T2 N P s s' H W. split; [exact (P s s' H W)|]. intros T Nm. destruct W as [W O].
  assert (I : incl (s_odd s) (s_odd s')).
  { destruct (todd l) eqn:E; [|rewrite (frame_odd l s s'); auto; intros x Hx; auto]. destruct l; try discriminate T1; try discriminate T2; try discriminate E.
    - apply create_eq in H. destruct H as (n & h & c & _ & _ & _ & ->). stcbn. ifs; cbn; intros x Hx; cbn; auto.
    - apply create_any_eq in H. destruct H as (n & _ & ->). stcbn. ifs; cbn; intros x Hx; cbn; auto.
    - inversion H; subst. apply addmb_eq in H1. destruct H1 as (c & cc & _ & _ & ->). stcbn. ifs; cbn; intros x Hx; cbn; auto.
    - inversion H; subst. stcbn. ifs; cbn; intros x Hx; cbn; auto.
    - inversion H; subst. stcbn. ifs; cbn; intros x Hx; cbn; auto. }
  eapply tree_frame; [eapply frame_heap|eapply frame_conn|apply T]; eauto. eapply norm_incl; eauto.
Qed.
#[export] Hint Extern 1 (PS _ (also wf2 itree)) => (apply itree_frame; [reflexivity|reflexivity|discriminate|exact _]) : typeclass_instances.
#[export] Instance itree_meta : PS L_meta (also wf2 itree).
Proof. apply also_ps; [exact _|]. intros s s' H W T N. inversion H; subst. eapply tree_set; [eauto| |apply T; exact N]. destruct (H1 c). repeat split; auto. congruence. Qed.
#[export] Instance itree_id : PS L_id (also wf2 itree).
Proof. apply also_ps; [exact _|]. intros s s' H W T N. inversion H; subst. eapply tree_set; [eauto| |apply T; exact N]. unfold set_id. ifs; repeat split; auto. Qed.
#[export] Instance itree_idany : PS L_idany (also wf2 itree).
Proof. apply also_ps; [exact _|]. intros s s' H W T N. inversion H; subst. eapply tree_set; [eauto| |apply T; exact N]. unfold set_id. ifs; repeat split; auto. Qed.
#[export] Instance itree_umode : PS L_umode (also wf2 itree).
Proof. apply also_ps; [exact _|]. intros s s' H W T N. inversion H; subst; (eapply tree_set; [eauto| |apply T; exact N]); repeat split; auto. Qed.
#[export] Instance itree_oper : PS L_oper (also wf2 itree).
Proof. apply also_ps; [exact _|]. intros s s' H W T N. inversion H; subst; (eapply tree_set; [eauto| |apply T; exact N]); repeat split; auto. Qed.
#[export] Instance itree_type : PS L_type (also wf2 itree).
Proof.
  apply also_ps; [exact _|]. intros s s' H W T N. apply type_eq in H. destruct H as (h & c & t & tok & a & b & Hc & Hk & _ & ->).
  destruct (retype_odd c t) eqn:E. { destruct N as [N _]. destruct N. left; auto. }
  assert (Ts : tree s) by (apply T; exact N). cbn [if_odd]. apply (tree_other (set_cli h (typed t tok) s)); try reflexivity.
  eapply tree_set; eauto. unfold typed. destruct (ctype_eqb t T_SERVER) eqn:Et; repeat split; cbn; auto.
  - intros _. apply ctype_eqb_eq. auto.
  - intros Es. exfalso. unfold retype_odd in E. rewrite Es in E. cbn in E. rewrite Et in E. destruct t; discriminate.
Qed.
#[export] Instance itree_intro : PS L_intro (also wf2 itree).
Proof.
  apply also_ps; [exact _|]. intros s s' H W T N. inversion H; subst. assert (Ts : tree s) by (apply T; exact N). rename H0 into Hc, H1 into Hi.
  assert (Nh : h <> This_Server). { intros ->. destruct (tr_me _ Ts) as (c0 & X1 & _ & X2 & _). congruence. }
  assert (Y : forall x c', assoc x (s_heap (set_cli h (set_cl_introducer (Some h)) s)) = Some c' -> exists c0, assoc x (s_heap s) = Some c0 /\ cl_conn c' = cl_conn c0 /\ cl_type c' = cl_type c0 /\
     ((x = h /\ cl_introducer c' = Some h) \/ (x <> h /\ c' = c0))).
  { intros x c' Hx. unfold set_cli in Hx. cbn [s_heap set_s_heap] in Hx. rewrite assoc_aupd in Hx. destruct (Nat.eqb_spec h x).
    - subst x. rewrite Hc in Hx. cbn in Hx. inversion Hx; subst. exists c. auto 6.
    - exists c'. auto 6. }
  assert (Z : forall x c0, assoc x (s_heap s) = Some c0 -> exists c', assoc x (s_heap (set_cli h (set_cl_introducer (Some h)) s)) = Some c' /\ cl_conn c' = cl_conn c0 /\ cl_type c' = cl_type c0 /\ (x <> h -> c' = c0)).
  { intros x c0 Hx. unfold set_cli. cbn [s_heap set_s_heap]. rewrite assoc_aupd. destruct (Nat.eqb_spec h x).
    - subst x. rewrite Hx. cbn. eexists. split; eauto. cbn. split; auto. split; auto. congruence.
    - exists c0. auto. }
  destruct Ts. split.
  - destruct tr_me0 as (c0 & X1 & X2 & X3 & X4). destruct (Z _ _ X1) as (c' & Y1 & Y2 & Y3 & Y4). assert (c' = c0) by auto. subst c'. exists c0. auto.
  - intros x c' Hx. destruct (Y _ _ Hx) as (c0 & X1 & _). change (In x (s_clients s)). eauto.
  - intros j cn Hj. change (assoc j (s_conns s) = Some cn) in Hj. destruct (tr_c2h0 _ _ Hj) as (x & c0 & X1 & X2 & X3). destruct (Z _ _ X2) as (c' & Y1 & Y2 & _). exists x, c'. rewrite Y2. auto.
  - intros x c' j Hx Hj. destruct (Y _ _ Hx) as (c0 & X1 & X2 & _). rewrite X2 in Hj. change (exists cn, assoc j (s_conns s) = Some cn /\ co_client cn = Some x). eauto.
  - intros x c' j Hx Hj. destruct (Y _ _ Hx) as (c0 & X1 & X2 & _ & [[-> X3]|[X3 ->]]); auto. eauto.
  - intros x c' Hx Hj Nx. destruct (Y _ _ Hx) as (c0 & X1 & X2 & _ & [[-> X3]|[X3 ->]]). { rewrite X2 in Hj. congruence. }
    destruct (tr_remote0 _ _ X1 Hj Nx) as (p & cp & A1 & A2 & A3 & A4 & A5). destruct (Z _ _ A4) as (cp' & Y1 & Y2 & Y3 & _). exists p, cp'. rewrite Y3. auto 6.
  - intros x p Hx Hp Hn Hpl. change (s_clients (set_cli h (set_cl_introducer (Some h)) s)) with (s_clients s) in *. unfold intro_of in Hp.
    destruct (assoc x (s_heap (set_cli h (set_cl_introducer (Some h)) s))) as [c'|] eqn:Ex; [|discriminate]. destruct (Y _ _ Ex) as (c0 & X1 & X2 & _ & [[-> X3]|[X3 ->]]); [congruence|].
    apply tr_ord0; auto. unfold intro_of. rewrite X1. auto.
Qed.
Lemma itree_born : forall l, l = L_new \/ l = L_service -> PS l (pres wf2) -> PS l (also wf2 itree).
Proof.
  intros l Hl P. apply also_ps; [exact _|]. intros s s' H [W _] T N. apply new_eq in H; auto. destruct H as (c & a & b & Bn & ->). destruct Bn.
  assert (Ts : tree s) by (apply T; exact N). eapply (tree_new s); [exact W|exact Ts|reflexivity|reflexivity| |].
  - intros _. split; [reflexivity|]. destruct bn_intro as (p & Ep & (l0 & cl & cp & At & Hl0 & Tl & Hp & Tp & Hi)). exists p, cp. split; auto. split; [|auto].
    assert (Nl : l0 <> This_Server). { intros ->. destruct At as (i & cn & Hcn & Ecn). destruct (tr_c2h _ Ts _ _ Hcn) as (h & c0 & X1 & X2 & X3). assert (h = This_Server) by congruence. subst.
      destruct (tr_me _ Ts) as (c1 & Y1 & _ & Y2 & _). congruence. }
    destruct Hi as [-> | (_ & Hi)]; auto. intros ->. destruct (tr_me _ Ts) as (c1 & Y1 & _ & _ & Y2). congruence.
  - intros i Hi. congruence.
Qed.
#[export] Instance itree_new : PS L_new (also wf2 itree).
Proof. apply itree_born; auto. exact _. Qed.
#[export] Instance itree_service : PS L_service (also wf2 itree).
Proof. apply itree_born; auto. exact _. Qed.
Lemma tree_opened : forall i cn c a b m acc sv s, wf s -> tree s -> assoc i (s_conns s) = None -> cl_conn c = Some i -> cl_introducer c = Some This_Server \/ cl_introducer c = Some (s_next s) ->
  co_client cn = Some (s_next s) -> tree (opened i cn (s_next s) c a b m acc sv s).
Proof.
  intros i cn c a b m acc sv s W T N Hc Hi Hn. eapply (tree_new s _ c); auto; [congruence|]. intros j Hj. assert (j = i) by congruence. subst j. split; auto. split; auto. exists cn. auto.
Qed.
#[export] Instance itree_accept : PS L_accept (also wf2 itree).
Proof.
  apply also_ps; [exact _|]. intros s s' H [W _] T N. inversion H; subst. destruct (wf_fresh _ W) as [F1 F2]. apply New_Connection_ok in H1; auto.
  destruct H1 as [(msg & -> & _)|(c & a & b & m & x & F & _ & _ & _ & Wr)]. { apply (tree_other s); try reflexivity. apply T. exact N. }
  eapply tree_frame; [apply fheap_wr; exact Wr|apply fconn_wr; exact Wr|]. apply tree_opened; auto.
  - apply T. eapply norm_fodd in N; [|apply fodd_wr; exact Wr]. exact N.
  - apply F.
  - left. apply F.
Qed.
#[export] Instance itree_newserver : PS L_newserver (also wf2 itree).
Proof.
  apply also_ps; [exact _|]. intros s s' H [W _] T N. inversion H; subst. destruct (wf_fresh _ W) as [F1 F2]. apply New_Server_ok in H1; auto.
  destruct H1 as [-> |(sv & c & a & b & m & _ & _ & F & ->)]; auto. apply tree_opened; auto. apply F.
Qed.
#[export] Instance itree_destroy : PS L_destroy (also wf2 itree).
Proof.
  apply also_ps; [exact _|]. intros s s' H [W _] T N. inversion H; subst. rename H0 into Hc, H1 into Hn. apply Client_Destroy_ok in H2; auto. destruct H2 as (D & G & P & R & Cl).
  destruct (norm_gone _ _ _ G N) as [Ns ND]. assert (Ts := T Ns). eapply (tree_gone h); eauto.
  - split; auto.
  - eapply tr_listed; eauto.
  - intros c0 Hc0. assert (c0 = c) by congruence. subst. destruct Hn as [Hn|(x & Hx & Nx)]; auto. destruct (cl_conn c) as [i|] eqn:Ei; auto. exfalso. apply Nx. eapply NextHop_local; eauto.
Qed.
#[export] Instance itree_close : PS L_close (also wf2 itree).
Proof.
  apply also_ps; [exact _|]. intros s s' H [W _] T N. inversion H; subst. apply Conn_Close_ok in H0; auto. destruct H0 as (cn & Hcn & [[_ ->]|(_ & _ & _ & D & sv & G & _ & HD)]); auto.
  destruct (norm_gone _ _ _ G N) as [Ns ND]. assert (Ts := T Ns). destruct (tr_c2h _ Ts _ _ Hcn) as (h & c & X1 & X2 & X3). rewrite X1 in HD. eapply tree_dropc; eauto.
Qed.
Theorem live_itree : forall s, live s -> itree s.
Proof.
  apply (also_inv wf2); [exact live_wf2| | |].
  - intros c sv t r s _ H. unfold boot in H. assert (R : rel (also wf2 itree) Channel_InitPredefined) by rel_auto. apply (R _ _ _ H).
    + split; [apply wf_init|]. split; cbn; [discriminate|reflexivity].
    + intros _. unfold init_state. set (me := set_info _ _ _). assert (E : cl_type me = T_SERVER /\ cl_conn me = None /\ cl_introducer me = Some This_Server).
      { unfold me, set_info, set_id. destruct (cf_cloakusertonick c); auto. }
      destruct E as (E1 & E2 & E3). clearbody me. split; cbn [s_heap s_clients s_conns assoc].
      * exists me. auto.
      * intros h x Hh. destruct (Nat.eqb_spec h This_Server); [left; auto|discriminate].
      * discriminate.
      * intros h x i Hh Hi. destruct (Nat.eqb_spec h This_Server); [|discriminate]. inversion Hh; subst. congruence.
      * intros h x i Hh Hi. destruct (Nat.eqb_spec h This_Server); [|discriminate]. inversion Hh; subst. congruence.
      * intros h x Hh Hi Nh. destruct (Nat.eqb_spec h This_Server); [congruence|discriminate].
      * intros x p [<- | []] Hp Hn [<- | []]. congruence.
  - intro e. apply step_rel.
  - apply action_rel.
Qed.
Theorem reachable_itree : forall s, reachable s -> itree s.
Proof. intros s R. apply live_itree. constructor. auto. Qed.
