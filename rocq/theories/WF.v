(** Invariants of all reachable states, part 1: the tables of the server. *)
From Coq Require Import List Ascii String ZArith NArith Bool Lia.
From Coq Require Import Relations RelationClasses.
From Verif Require Import Bytes Strl Match Lists Hash ParseReq State Messages Monad Core Write Info Chan Mode Msg Login Oper Server Dispatch Conn Rel RelWrite RelInfo RelBase RelChan RelSrv RelInit RelKey RelCmd RelComp.
Import ListNotations.
Local Open Scope m_scope.

(** ---- invariants as relations ---- *)
Definition pres (I : state -> Prop) (s s' : state) : Prop := I s -> I s'.
#[export] Instance pres_po : forall I, PreOrder (pres I).
Proof. intro I. split; [intros s H; exact H|]. intros a b c H1 H2 H. auto. Qed.
(** [I2] is preserved in states with [I1], which is preserved *)
Definition also (I1 I2 : state -> Prop) (s s' : state) : Prop := I1 s -> I1 s' /\ (I2 s -> I2 s').
#[export] Instance also_po : forall I1 I2, PreOrder (also I1 I2).
Proof. intros. split; [intros s H; auto|]. intros a b c H1 H2 H. destruct (H1 H) as [Hb H3]. destruct (H2 Hb) as [Hc H4]. auto. Qed.
Lemma also_wr : forall (I1 I2 : state -> Prop) {W : WrSub (pres I1)}, (forall s s', wstep s s' -> I1 s -> I2 s -> I2 s') -> WrSub (also I1 I2).
Proof. intros I1 I2 W H s s' Hw H1. split; [exact (W s s' Hw H1)|]. intro. eapply H; eauto. Qed.
Lemma also_ps : forall l (I1 I2 : state -> Prop) {W : PS l (pres I1)}, (forall s s', pstep l s s' -> I1 s -> I2 s -> I2 s') -> PS l (also I1 I2).
Proof. intros l I1 I2 W H s s' Hw H1. split; [exact (W s s' Hw H1)|]. intro. eapply H; eauto. Qed.

(** ---- the shape of the tables ---- *)
Definition mpair (m : member) : handle * chandle := (mb_client m, mb_chan m).
Record shape := mkShape { sh_heap : list handle; sh_next : nat; sh_clients : list handle; sh_chans : list chandle; sh_chnext : nat;
  sh_members : list (handle * chandle); sh_conns : list connid }.
Definition shape_of (s : state) : shape :=
  mkShape (map fst (s_heap s)) (s_next s) (s_clients s) (map fst (s_chans s)) (s_chnext s) (map mpair (s_members s)) (map fst (s_conns s)).
Record wfs (x : shape) : Prop := mk_wfs {
  wf_heap : NoDup (sh_heap x); wf_next : forall h, In h (sh_heap x) -> h < sh_next x;
  wf_clients : NoDup (sh_clients x); wf_listed : incl (sh_clients x) (sh_heap x);
  wf_chans : NoDup (sh_chans x); wf_chnext : forall ch, In ch (sh_chans x) -> ch < sh_chnext x;
  wf_members : NoDup (sh_members x); wf_mbchan : forall p, In p (sh_members x) -> In (snd p) (sh_chans x);
  wf_mbclient : forall p, In p (sh_members x) -> fst p < sh_next x;
  wf_conns : NoDup (sh_conns x) }.
Definition wf (s : state) : Prop := wfs (shape_of s).
Lemma wf_same : forall s s', shape_of s' = shape_of s -> pres wf s s'.
Proof. intros s s' E H. unfold wf. rewrite E. exact H. Qed.
Lemma shape_eq : forall s s', map fst (s_heap s') = map fst (s_heap s) -> s_next s' = s_next s -> s_clients s' = s_clients s ->
  map fst (s_chans s') = map fst (s_chans s) -> s_chnext s' = s_chnext s -> map mpair (s_members s') = map mpair (s_members s) ->
  map fst (s_conns s') = map fst (s_conns s) -> shape_of s' = shape_of s.
Proof. intros. unfold shape_of. congruence. Qed.
Ltac shape_triv := apply wf_same; apply shape_eq; unfold set_cli, set_chan, set_con;
  cbn [s_heap s_next s_clients s_chans s_chnext s_members s_conns set_s_heap set_s_chans set_s_conns set_s_members set_s_glines set_s_klines set_s_servers
       set_s_sigquit set_s_sigrehash set_s_sigrestart set_s_wcounter set_s_rnd set_s_now set_s_lastww set_s_whowas set_s_numconn set_s_odd
       set_s_maxusers set_s_mymaxusers]; rewrite ?aupd_keys; reflexivity.
#[export] Instance wf_wr : WrSub (pres wf).
Proof.
  intros s s' H. destruct H; try shape_triv.
  apply wf_same; apply shape_eq; cbn; auto. rewrite map_map. reflexivity.
Qed.
Lemma wf_wrs : forall s s', wr s s' -> pres wf s s'.
Proof. intros. apply wr_incl; auto; exact _. Qed.
#[export] Instance wf_meta : PS L_meta (pres wf).
Proof. intros s s' H. inversion H; subst. shape_triv. Qed.
#[export] Instance wf_intro : PS L_intro (pres wf).
Proof. intros s s' H. inversion H; subst. shape_triv. Qed.
#[export] Instance wf_id : PS L_id (pres wf).
Proof. intros s s' H. inversion H; subst. shape_triv. Qed.
#[export] Instance wf_idany : PS L_idany (pres wf).
Proof. intros s s' H. inversion H; subst. shape_triv. Qed.
#[export] Instance wf_umode : PS L_umode (pres wf).
Proof. intros s s' H. inversion H; subst; shape_triv. Qed.
#[export] Instance wf_oper : PS L_oper (pres wf).
Proof. intros s s' H. inversion H; subst; shape_triv. Qed.
Lemma shape_odd : forall b o s, shape_of (if_odd b o s) = shape_of s.
Proof. intros [] o s; reflexivity. Qed.
Lemma SetType_shape : forall h t s s', Client_SetType h t s = Ok tt s' -> shape_of s' = shape_of s.
Proof.
  intros h t s s' H. apply Client_SetType_ok in H. destruct H as (c & tok & a & b & _ & -> & _).
  unfold shape_of, set_cli. cbn [s_heap s_next s_clients s_chans s_chnext s_members s_conns set_s_heap set_s_maxusers set_s_mymaxusers]. rewrite aupd_keys.
  unfold if_odd. destruct (retype_odd c t); reflexivity.
Qed.
#[export] Instance wf_type : PS L_type (pres wf).
Proof. intros s s' H. inversion H; subst. apply wf_same. eapply SetType_shape; eauto. Qed.
Lemma wf_fresh : forall s, wf s -> ~ In (s_next s) (map fst (s_heap s)) /\ ~ In (s_next s) (s_clients s).
Proof.
  intros s W. assert (A : ~ In (s_next s) (map fst (s_heap s))). { intro H. apply (wf_next _ W) in H. cbn in H. lia. }
  split; auto. intro H. apply A. apply (wf_listed _ W). exact H.
Qed.
(** a new client *)
Lemma wf_add : forall s c s', map fst (s_heap s') = s_next s :: map fst (s_heap s) -> s_next s' = S (s_next s) -> s_clients s' = s_next s :: s_clients s ->
  s_chans s' = s_chans s -> s_chnext s' = s_chnext s -> s_members s' = s_members s ->
  map fst (s_conns s') = map fst (s_conns s) \/ (exists i, map fst (s_conns s') = i :: map fst (s_conns s) /\ ~ In i (map fst (s_conns s))) ->
  c = tt -> pres wf s s'.
Proof.
  intros s c s' E1 E2 E3 E4 E5 E6 E7 _ W. destruct (wf_fresh _ W) as [F1 F2]. destruct W. cbn in *. unfold wf, shape_of. rewrite E1, E2, E3, E4, E5, E6. split; cbn.
  - constructor; auto.
  - intros h [<-|Hh]; auto. apply wf_next0 in Hh. lia.
  - constructor; auto.
  - intros x [<-|Hx]; [left; auto|right; auto].
  - auto.
  - auto.
  - auto.
  - auto.
  - intros p Hp. apply wf_mbclient0 in Hp. lia.
  - destruct E7 as [-> | (i & -> & Hi)]; auto. constructor; auto.
Qed.
Lemma Init_shape : forall idx intro top t id user host info hops token modes idented s h s',
  Init_New_Client idx intro top t id user host info hops token modes idented s = Ok h s' -> pres wf s s'.
Proof.
  intros idx intro top t id user host info hops token modes idented s h s' H W. destruct (wf_fresh _ W) as [F1 F2].
  apply Init_New_Client_ok in H; auto. destruct H as (-> & c & a & b & _ & ->).
  eapply (wf_add s tt); eauto; reflexivity.
Qed.
#[export] Instance wf_new : PS L_new (pres wf).
Proof.
  intros s s' H. inversion H; subst.
  - eapply Init_shape; eauto.
  - transitivity s1; [eapply Init_shape; eauto|]. apply wf_same. eapply SetType_shape; eauto.
Qed.
#[export] Instance wf_service : PS L_service (pres wf).
Proof. intros s s' H. inversion H; subst. transitivity s1; [eapply Init_shape; eauto|]. apply wf_same. eapply SetType_shape; eauto. Qed.
(** channels *)
Lemma wf_addchan : forall s c, pres wf s (set_s_chnext (S (s_chnext s)) (set_s_chans ((s_chnext s, c) :: s_chans s) s)).
Proof.
  intros s c W. destruct W. cbn in *. split; cbn; auto.
  - constructor; auto. intro H. apply wf_chnext0 in H. lia.
  - intros ch [<-|H]; auto. apply wf_chnext0 in H. lia.
Qed.
Lemma is_mb_pair : forall ch h m, is_mb ch h m = true <-> mpair m = (h, ch).
Proof.
  intros ch h m. unfold is_mb, mpair, heq. rewrite andb_true_iff, !Nat.eqb_eq. split; [intros [-> ->]; auto|]. intro E. inversion E. auto.
Qed.
Lemma assoc_In : forall A k (l : list (nat * A)) a, assoc k l = Some a -> In (k, a) l.
Proof. induction l as [|[j x] l IH]; cbn; intros a H; [discriminate|]. destruct (Nat.eqb_spec k j); [inversion H; subst; auto|auto]. Qed.
Lemma assoc_key : forall A k (l : list (nat * A)) a, assoc k l = Some a -> In k (map fst l).
Proof. intros. apply assoc_In in H. apply (in_map fst) in H. exact H. Qed.
Lemma key_assoc : forall A k (l : list (nat * A)), In k (map fst l) -> exists a, assoc k l = Some a.
Proof. induction l as [|[j x] l IH]; cbn; intros H; [destruct H|]. destruct (Nat.eqb_spec k j); eauto. destruct H; [congruence|auto]. Qed.
Lemma assoc_nokey : forall A k (l : list (nat * A)), assoc k l = None <-> ~ In k (map fst l).
Proof.
  intros. split.
  - intros H Hi. apply key_assoc in Hi. destruct Hi as [a Ha]. congruence.
  - intros H. destruct (assoc k l) eqn:E; auto. destruct H. eapply assoc_key; eauto.
Qed.
Lemma In_assoc : forall A k (l : list (nat * A)) a, NoDup (map fst l) -> In (k, a) l -> assoc k l = Some a.
Proof.
  induction l as [|[j x] l IH]; cbn; intros a N H; [destruct H|]. inversion N; subst. destruct H as [E|H].
  - inversion E; subst. rewrite Nat.eqb_refl. auto.
  - destruct (Nat.eqb_spec k j); [|auto]. subst. destruct H2. apply (in_map fst) in H. exact H.
Qed.
Lemma Add_Client_shape : forall ch h s s', Add_Client ch h s = Ok tt s' -> find (is_mb ch h) (s_members s) = None -> pres wf s s'.
Proof.
  intros ch h s s' H F W. apply Add_Client_ok in H. destruct H as (c & cc & Hc & Hcc & ->).
  destruct W. cbn in *. unfold wf, shape_of.
  replace (s_heap _) with (s_heap s) by (unfold if_odd; destruct (negb (userish (cl_type c))); reflexivity).
  replace (s_next _) with (s_next s) by (unfold if_odd; destruct (negb (userish (cl_type c))); reflexivity).
  replace (s_clients _) with (s_clients s) by (unfold if_odd; destruct (negb (userish (cl_type c))); reflexivity).
  replace (s_chans _) with (s_chans s) by (unfold if_odd; destruct (negb (userish (cl_type c))); reflexivity).
  replace (s_chnext _) with (s_chnext s) by (unfold if_odd; destruct (negb (userish (cl_type c))); reflexivity).
  replace (s_conns _) with (s_conns s) by (unfold if_odd; destruct (negb (userish (cl_type c))); reflexivity).
  split; cbn [sh_heap sh_next sh_clients sh_chans sh_chnext sh_members sh_conns s_members set_s_members map]; auto.
  - constructor; auto. intro Hin. apply in_map_iff in Hin. destruct Hin as (m & Hm & Hin). change (mpair m = (h, ch)) in Hm. apply is_mb_pair in Hm.
    pose proof (find_none _ _ F _ Hin) as Hx. rewrite Hm in Hx. discriminate.
  - intros p [<-|Hp]; auto. cbn. eapply assoc_key; eauto.
  - intros p [<-|Hp]; auto. cbn. apply wf_next0. eapply assoc_key; eauto.
Qed.
#[export] Instance wf_create_any : PS L_create_any (pres wf).
Proof.
  intros s s' H. inversion H; subst. apply chaninfo_create_ok in H1. destruct H1 as (-> & ->). intro W.
  assert (W1 : wf (if_odd (negb (valid_chan name)) (O_Chan (s_chnext s)) (if_odd true (O_Empty (s_chnext s)) s))) by (revert W; unfold if_odd; destruct (negb (valid_chan name)); shape_triv).
  apply (wf_addchan _ (new_channel name (s_now s))) in W1. revert W1. unfold if_odd. destruct (negb (valid_chan name)); auto.
Qed.
#[export] Instance wf_create_pre : PS L_create_pre (pres wf).
Proof.
  intros s s' H. inversion H; subst. intro W. apply (wf_addchan _ (new_channel name (s_now s))) in W. revert W. shape_triv.
Qed.
#[export] Instance wf_create : PS L_create (pres wf).
Proof.
  intros s s' H. inversion H; subst. rename H2 into HC, H3 into HA. apply Channel_Create_ok in HC. destruct HC as (-> & ->).
  intro W. pose proof (wf_addchan s (new_channel name (s_now s)) W) as W1. eapply Add_Client_shape; eauto.
  cbn [s_members set_s_chnext set_s_chans]. destruct (find _ _) eqn:E; auto. apply find_some in E. destruct E as [E1 E2].
  apply is_mb_pair in E2. apply (in_map mpair) in E1. apply (wf_mbchan _ W) in E1. rewrite E2 in E1. cbn in E1. apply (wf_chnext _ W) in E1. cbn in E1. lia.
Qed.
#[export] Instance wf_addmb : PS L_addmb (pres wf).
Proof. intros s s' H. inversion H; subst. eapply Add_Client_shape; eauto. Qed.
Lemma del_mb_spec : forall ch h l, exists k, del_mb ch h l = l \/ exists a b, l = a ++ k :: b /\ is_mb ch h k = true /\ del_mb ch h l = a ++ b.
Proof.
  induction l as [|m l IH]; cbn. { exists (mkMember 0 0 []). auto. }
  destruct (is_mb ch h m) eqn:E. { exists m. right. exists [], l. auto. }
  destruct IH as [k [IH|(a & b & IH & Hk & Hd)]].
  - exists k. left. rewrite IH. auto.
  - exists k. right. exists (m :: a), b. rewrite Hd, IH. auto.
Qed.
Lemma del_mb_incl : forall ch h l, incl (del_mb ch h l) l.
Proof.
  intros. destruct (del_mb_spec ch h l) as [k [-> | (a & b & E & _ & ->)]]; [intros x Hx; auto|]. rewrite E. intros x. rewrite !in_app_iff. cbn. tauto.
Qed.
Lemma NoDup_sub : forall A (l m : list A) k, NoDup (l ++ k :: m) -> NoDup (l ++ m).
Proof. intros. eapply NoDup_remove_1; eauto. Qed.
#[export] Instance wf_delmb : PS L_delmb (pres wf).
Proof.
  intros s s' H. inversion H; subst. intro W. destruct W. cbn in *. split; cbn; auto.
  - destruct (del_mb_spec ch h (s_members s)) as [k [-> | (a & b & E & _ & ->)]]; auto. rewrite E in wf_members0. rewrite map_app in *. cbn in wf_members0. eapply NoDup_sub; eauto.
  - intros p Hp. apply wf_mbchan0. apply in_map_iff in Hp. destruct Hp as (m & <- & Hm). apply in_map. eapply del_mb_incl; eauto.
  - intros p Hp. apply wf_mbclient0. apply in_map_iff in Hp. destruct Hp as (m & <- & Hm). apply in_map. eapply del_mb_incl; eauto.
Qed.
Lemma adel_keys : forall A k (l : list (nat * A)), map fst (adel k l) = filter (fun x => negb (Nat.eqb k x)) (map fst l).
Proof. unfold adel. induction l as [|[j x] l IH]; cbn; auto. destruct (Nat.eqb k j); cbn; rewrite IH; auto. Qed.
Lemma In_filter_neq : forall k x l, In x (filter (fun x => negb (Nat.eqb k x)) l) <-> In x l /\ x <> k.
Proof. intros. rewrite filter_In, negb_true_iff, Nat.eqb_neq. intuition. Qed.
#[export] Instance wf_delchan : PS L_delchan (pres wf).
Proof.
  intros s s' H. inversion H; subst. intro W. destruct W. cbn in *. split; cbn; auto; rewrite ?adel_keys.
  - apply NoDup_filter; auto.
  - intros x Hx. apply In_filter_neq in Hx. destruct Hx. auto.
  - intros p Hp. apply In_filter_neq. split; auto. apply in_map_iff in Hp. destruct Hp as (m & <- & Hm). cbn. auto.
Qed.
Lemma upd_mb_pairs : forall ch h f l, (forall m, mpair (f m) = mpair m) -> map mpair (upd_mb ch h f l) = map mpair l.
Proof. intros ch h f l Hf. induction l as [|m l IH]; cbn; auto. destruct (is_mb ch h m); cbn; rewrite ?IH, ?Hf; auto. Qed.
#[export] Instance wf_mbmode : PS L_mbmode (pres wf).
Proof. intros s s' H. inversion H; subst; apply wf_same; apply shape_eq; cbn; auto; apply upd_mb_pairs; reflexivity. Qed.
#[export] Instance wf_chadd : PS L_chadd (pres wf).
Proof. intros s s' H. inversion H; subst; shape_triv. Qed.
#[export] Instance wf_chdel : PS L_chdel (pres wf).
Proof. intros s s' H. inversion H; subst. unfold if_odd. match goal with |- context [if ?b then _ else _] => destruct b end; shape_triv. Qed.
#[export] Instance wf_setmodes : PS L_setmodes (pres wf).
Proof. intros s s' H. inversion H; subst. unfold if_odd. match goal with |- context [if ?b then _ else _] => destruct b end; shape_triv. Qed.
#[export] Instance wf_topic : PS L_topic (pres wf).
Proof. intros s s' H. inversion H; subst; shape_triv. Qed.
#[export] Instance wf_key : PS L_key (pres wf).
Proof. intros s s' H. inversion H; subst; shape_triv. Qed.
#[export] Instance wf_limit : PS L_limit (pres wf).
Proof. intros s s' H. inversion H; subst; shape_triv. Qed.
#[export] Instance wf_keyfile : PS L_keyfile (pres wf).
Proof. intros s s' H. inversion H; subst; shape_triv. Qed.
#[export] Instance wf_lists : PS L_lists (pres wf).
Proof. intros s s' H. inversion H; subst; shape_triv. Qed.
#[export] Instance wf_class : PS L_class (pres wf).
Proof. intros s s' H. inversion H; subst; shape_triv. Qed.
#[export] Instance wf_whowas : PS L_whowas (pres wf).
Proof.
  intros s s' H. inversion H; subst. apply RegisterWhowas_ok in H0. destruct H0 as (s1 & W & E).
  transitivity s1; [apply wf_wrs; auto|]. destruct E as [-> | (sl & e & _ & ->)]; shape_triv.
Qed.
#[export] Instance wf_sv : PS L_sv (pres wf).
Proof. intros s s' H. inversion H; subst; shape_triv. Qed.
#[export] Instance wf_sig : PS L_sig (pres wf).
Proof. intros s s' H. inversion H; subst; shape_triv. Qed.
#[export] Instance wf_wc : PS L_wc (pres wf).
Proof. intros s s' H. inversion H; subst; shape_triv. Qed.
#[export] Instance wf_conn : PS L_conn (pres wf).
Proof. intros s s' H. inversion H; subst; shape_triv. Qed.
#[export] Instance wf_read : PS L_read (pres wf).
Proof. intros s s' H. inversion H; subst; shape_triv. Qed.
#[export] Instance wf_coclose : PS L_coclose (pres wf).
Proof. intros s s' H. inversion H; subst; shape_triv. Qed.
#[export] Instance wf_codel : PS L_codel (pres wf).
Proof.
  intros s s' H. inversion H; subst. intro W. destruct W. cbn in *. split; cbn; auto. rewrite adel_keys. apply NoDup_filter; auto.
Qed.
#[export] Instance wf_unlink : PS L_unlink (pres wf).
Proof.
  intros s s' H. inversion H; subst. intro W. destruct W. cbn in *. split; cbn; auto.
  - apply NoDup_filter; auto.
  - intros x Hx. unfold unlink in Hx. apply filter_In in Hx. apply wf_listed0. tauto.
Qed.
#[export] Instance wf_free : PS L_free (pres wf).
Proof.
  intros s s' H. inversion H; subst. rename H1 into N. apply Free_Client_ok in H2. destruct H2 as (c1 & _ & ->).
  assert (E : forall b o, shape_of (set_s_heap (adel h (s_heap s)) (if_odd b o s)) = shape_of (set_s_heap (adel h (s_heap s)) s)).
  { intros [] o; reflexivity. }
  intro W. unfold wf. rewrite E. destruct W. cbn in *. split; cbn; auto; rewrite ?adel_keys.
  - apply NoDup_filter; auto.
  - intros x Hx. apply In_filter_neq in Hx. destruct Hx. auto.
  - intros x Hx. apply In_filter_neq. split; auto. intros ->. auto.
Qed.
#[export] Instance wf_time : PS L_time (pres wf).
Proof. intros s s' H. inversion H; subst; shape_triv. Qed.
Lemma wf_opened : forall i cn h c a b m acc sv s, h = s_next s -> assoc i (s_conns s) = None -> pres wf s (opened i cn h c a b m acc sv s).
Proof.
  intros i cn h c a b m acc sv s -> N. eapply (wf_add s tt); try reflexivity. right. exists i. split; [reflexivity|]. apply assoc_nokey. auto.
Qed.
#[export] Instance wf_accept : PS L_accept (pres wf).
Proof.
  intros s s' H. inversion H; subst. intro W. destruct (wf_fresh _ W) as [F1 F2]. apply New_Connection_ok in H1; auto.
  destruct H1 as [(msg & -> & _)|(c & a & b & m & x & _ & _ & _ & _ & Wr)]; [exact W|]. eapply wf_wrs; eauto. apply wf_opened; auto.
Qed.
#[export] Instance wf_newserver : PS L_newserver (pres wf).
Proof.
  intros s s' H. inversion H; subst. intro W. destruct (wf_fresh _ W) as [F1 F2]. apply New_Server_ok in H1; auto.
  destruct H1 as [-> |(sv & c & a & b & m & _ & _ & _ & ->)]; [exact W|]. apply wf_opened; auto.
Qed.

Lemma wf_init : forall c sv t r, wf (init_state c sv t r).
Proof.
  intros. unfold wf, shape_of, init_state. cbn. split; cbn; try (repeat constructor; auto; tauto); try (intros; tauto).
  - intros x [<-|[]]. unfold This_Server; lia.
  - intros x Hx. exact Hx.
Qed.
(** every reachable state is well-formed *)
Theorem live_inv : forall I : state -> Prop,
  (forall c sv t r s, conf_ok c -> boot c sv t r = Ok tt s -> I s) -> (forall e, rel (pres I) (step e)) -> (forall s s', action s s' -> pres I s s') -> forall s, live s -> I s.
Proof.
  intros I Hb Hs Ha. assert (R : forall s, reachable s -> I s). { intros s R. induction R; [eauto|]. exact (Hs e s tt s' H IHR). }
  intros s L. induction L; [auto|]. exact (Ha _ _ H IHL).
Qed.
Theorem live_wf : forall s, live s -> wf s.
Proof.
  apply live_inv.
  - intros c sv t r s _ H. unfold boot in H. assert (R : rel (pres wf) Channel_InitPredefined) by rel_auto. apply (R _ _ _ H). apply wf_init.
  - intro e. apply step_rel.
  - apply action_rel.
Qed.
Theorem reachable_wf : forall s, reachable s -> wf s.
Proof. intros s R. apply live_wf. constructor. auto. Qed.
Lemma also_inv : forall I1 I2 : state -> Prop, (forall s, live s -> I1 s) ->
  (forall c sv t r s, conf_ok c -> boot c sv t r = Ok tt s -> I2 s) -> (forall e, rel (also I1 I2) (step e)) -> (forall s s', action s s' -> also I1 I2 s s') ->
  forall s, live s -> I2 s.
Proof.
  intros I1 I2 H1 Hb Hs Ha. assert (R : forall s, reachable s -> I2 s). { intros s R. induction R; [eauto|]. apply (Hs e s tt s' H); auto. apply H1. constructor. auto. }
  intros s L. induction L; [auto|]. apply (Ha _ _ H); auto.
Qed.
