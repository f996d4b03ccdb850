(** Invariants of all reachable states, part 6: the configuration never changes, and the
    nicknames of local users are valid. *)
From Coq Require Import List Ascii String ZArith NArith Bool Lia.
From Coq Require Import Relations RelationClasses.
From Verif Require Import Bytes Strl Match Lists Hash ParseReq State Messages Monad Core Write Info Chan Mode Msg Login Oper Server Dispatch Conn Rel RelWrite RelInfo RelBase RelChan RelSrv RelInit RelKey RelCmd RelComp WF RelGone Frame Tree RelReg Inv1 Inv2 Inv3.
Import ListNotations.
Local Open Scope m_scope.

(** ---- the configuration ---- *)
Definition iconf (k : conf) (s : state) : Prop := s_conf s = k.
#[export] Instance iconf_wr : forall k, WrSub (also wf (iconf k)).
Proof. intro k. apply also_wr; [exact _|]. intros s s' H _ E. unfold iconf. rewrite (fconf_wr s s'); auto. apply rt_step. auto. Qed.
Lemma conf_step : forall l s s', compo l = false -> wf s -> pstep l s s' -> fconf s s'.
Proof.
  intros l s s' T W H. unfold fconf. destruct l; try discriminate T; try (inversion H; subst; reflexivity); try (inversion H; subst; unfold set_chan, if_odd; ifs; reflexivity).
  - apply type_eq in H. destruct H as (h & c & t & tok & a & b & _ & _ & _ & ->). stcbn. ifs; reflexivity.
  - apply type0_type, type_eq in H. destruct H as (h & c & t & tok & a & b & _ & _ & _ & ->). stcbn. ifs; reflexivity.
  - apply new_eq in H; auto. destruct H as (c & a & b & _ & ->). reflexivity.
  - apply new_eq in H; auto. destruct H as (c & a & b & _ & ->). reflexivity.
  - apply create_eq in H. destruct H as (n & h & c & _ & _ & _ & ->). stcbn. ifs; reflexivity.
  - apply create_any_eq in H. destruct H as (n & _ & ->). stcbn. ifs; reflexivity.
  - inversion H; subst. apply addmb_eq in H1. destruct H1 as (c & cc & _ & _ & ->). stcbn. ifs; reflexivity.
  - apply whowas_eq in H. destruct H as (s1 & Wr & E). rewrite <- (fconf_wr _ _ Wr). destruct E as [-> | (sl & e & ->)]; reflexivity.
  - apply free_eq in H. destruct H as (h & c & _ & _ & ->). stcbn. ifs; reflexivity.
  - inversion H; subst. destruct (wf_fresh _ W) as [F1 F2]. apply New_Connection_ok in H1; auto. destruct H1 as [(msg & -> & _)|(c & a & b & m & x & _ & _ & _ & _ & Wr)]; [reflexivity|].
    apply fconf_wr in Wr. exact Wr.
  - inversion H; subst. destruct (wf_fresh _ W) as [F1 F2]. apply New_Server_ok in H1; auto. destruct H1 as [-> |(sv & c & a & b & m & _ & _ & _ & ->)]; reflexivity.
Qed.
Lemma iconf_ps : forall k l, compo l = false -> PS l (pres wf) -> PS l (also wf (iconf k)).
Proof. intros k l T P s s' H W. split; [exact (P s s' H W)|]. intro E. unfold iconf. rewrite (conf_step l s s'); auto. Qed.
#[export] Hint Extern 1 (PS _ (also wf (iconf _))) => (apply iconf_ps; [reflexivity|exact _]) : typeclass_instances.
Lemma step_conf : forall e s s', step e s = Ok tt s' -> wf s -> s_conf s' = s_conf s.
Proof. intros e s s' H W. assert (R : rel (also wf (iconf (s_conf s))) (step e)) by apply step_rel. apply (R _ _ _ H W). reflexivity. Qed.
Lemma boot_conf : forall c sv t r s, boot c sv t r = Ok tt s -> s_conf s = c.
Proof.
  intros c sv t r s H. unfold boot in H. assert (R : rel (also wf (iconf c)) Channel_InitPredefined) by rel_auto. apply (R _ _ _ H).
  - apply wf_init.
  - reflexivity.
Qed.
Lemma action_conf : forall s s', action s s' -> wf s -> s_conf s' = s_conf s.
Proof. intros s s' H W. assert (R : also wf (iconf (s_conf s)) s s') by (apply action_rel; auto). apply (R W). reflexivity. Qed.
Theorem reachable_conf : forall s, reachable s -> conf_ok (s_conf s).
Proof. intros s R. induction R. - apply boot_conf in H0. congruence. - apply step_conf in H; [congruence|]. apply reachable_wf; auto. Qed.
Theorem live_conf : forall s, live s -> conf_ok (s_conf s).
Proof. intros s R. induction R. - apply reachable_conf; auto. - apply action_conf in H; [congruence|]. apply live_wf; auto. Qed.

(** ---- the client structures after start-up ---- *)
Definition ckeep (c c' : client) : Prop := cl_type c' = cl_type c /\ cl_conn c' = cl_conn c /\ cl_mytoken c' = cl_mytoken c /\ cl_id c' = cl_id c /\ cl_introducer c' = cl_introducer c.
Lemma ckeep_refl : Reflexive ckeep. Proof. intro c. repeat split. Qed.
Lemma ckeep_trans : Transitive ckeep. Proof. unfold ckeep. intros a b c (A1&A2&A3&A4&A5) (B1&B2&B3&B4&B5). repeat split; congruence. Qed.
Definition bheap (s0 s : state) : Prop := forall h, orel ckeep (assoc h (s_heap s0)) (assoc h (s_heap s)).
Lemma bheap_f : forall s0 s s', fheap s s' -> bheap s0 s -> bheap s0 s'.
Proof. intros s0 s s' F B h. eapply orel_trans; [apply ckeep_trans|apply B|]. eapply orel_imp; [|apply (fh_cli _ _ F)]. intros x y [z ->]. repeat split. Qed.
Lemma bheap_set : forall s0 s h f, (forall c, ckeep c (f c)) -> bheap s0 s -> bheap s0 (set_cli h f s).
Proof.
  intros s0 s h f K B x. eapply orel_trans; [apply ckeep_trans|apply B|]. unfold set_cli. cbn [s_heap set_s_heap]. rewrite assoc_aupd. destruct (Nat.eqb h x); [|apply orel_refl, ckeep_refl].
  destruct (assoc x (s_heap s)); cbn; auto.
Qed.
#[export] Instance bheap_wr : forall s0, WrSub (also wf (bheap s0)).
Proof. intro s0. apply also_wr; [exact _|]. intros s s' H _ E. eapply bheap_f; [|exact E]. apply fheap_wr, rt_step. auto. Qed.
Lemma bheap_ps : forall s0 l, theap l = false -> PS l (pres wf) -> PS l (also wf (bheap s0)).
Proof. intros s0 l T P s s' H W. split; [exact (P s s' H W)|]. apply bheap_f. eapply frame_heap; eauto. Qed.
#[export] Hint Extern 1 (PS _ (also wf (bheap _))) => (apply bheap_ps; [reflexivity|exact _]) : typeclass_instances.
#[export] Instance bheap_meta : forall s0, PS L_meta (also wf (bheap s0)).
Proof. intro s0. apply also_ps; [exact _|]. intros s s' H _. inversion H; subst. apply bheap_set. intro x. destruct (H1 x). repeat split; auto. Qed.
#[export] Instance bheap_umode : forall s0, PS L_umode (also wf (bheap s0)).
Proof. intro s0. apply also_ps; [exact _|]. intros s s' H _. inversion H; subst; apply bheap_set; intro x; repeat split; auto. Qed.
#[export] Instance bheap_oper : forall s0, PS L_oper (also wf (bheap s0)).
Proof. intro s0. apply also_ps; [exact _|]. intros s s' H _. inversion H; subst; apply bheap_set; intro x; repeat split; auto. Qed.
Lemma boot_heap : forall c sv t r s, boot c sv t r = Ok tt s -> bheap (init_state c sv t r) s.
Proof.
  intros c sv t r s H. unfold boot in H. assert (R : forall s0, rel (also wf (bheap s0)) Channel_InitPredefined) by (intro; rel_auto). apply (R (init_state c sv t r) _ _ _ H).
  - apply wf_init.
  - intro h. apply orel_refl, ckeep_refl.
Qed.
(** the client structure of this server *)
Lemma boot_me : forall c sv t r s h x, boot c sv t r = Ok tt s -> assoc h (s_heap s) = Some x ->
  h = This_Server /\ cl_type x = T_SERVER /\ cl_conn x = None /\ cl_mytoken x = 1%Z /\ cl_id x = strlcpy CLIENT_ID_LEN (cf_servername c) /\ cl_introducer x = Some This_Server.
Proof.
  intros c sv t r s h x H Hx. apply boot_heap in H. pose proof (H h) as A. rewrite Hx in A. unfold init_state in A. cbn [s_heap assoc] in A. destruct (Nat.eqb_spec h This_Server); [|destruct A].
  split; auto. destruct A as (-> & -> & -> & -> & ->). unfold set_info, set_id. destruct (cf_cloakusertonick c); cbn; auto 6.
Qed.

(** ---- valid nicknames ---- *)
(** all that is known on the way *)
Record wfn (s : state) : Prop := mk_wfn { wn_wf2 : wf2 s; wn_tree : itree s; wn_cli : icli s; wn_conf : conf_ok (s_conf s) }.
#[export] Instance wfn_wr : WrSub (pres wfn).
Proof.
  intros s s' H [W T C K]. destruct (itree_wr s s' H W) as [A1 A2]. destruct (icli_WS s s' H (proj1 W)) as [_ A3]. split; auto. rewrite (fconf_wr s s'); auto. apply rt_step; auto.
Qed.
Lemma wfn_ps : forall l, PS l (also wf2 itree) -> PS l (also wf icli) -> (forall k, PS l (also wf (iconf k))) -> PS l (pres wfn).
Proof. intros l P1 P2 P3 s s' H [W T C K]. destruct (P1 s s' H W) as [A1 A2]. destruct (P2 s s' H (proj1 W)) as [_ A3]. destruct (P3 (s_conf s) s s' H (proj1 W)) as [_ A4]. split; auto. rewrite A4; auto. reflexivity. Qed.
#[export] Hint Extern 5 (PS _ (pres wfn)) => (apply wfn_ps; exact _) : typeclass_instances.
Theorem live_wfn : forall s, live s -> wfn s.
Proof. intros s R. split; [apply live_wf2|apply live_itree|apply live_icli|apply live_conf]; auto. Qed.

Definition nickok (mx : nat) (c : client) : Prop :=
  cl_conn c = None \/ prereg (cl_type c) = false \/ (cl_id c = [] /\ nickish (cl_type c) = false) \/ valid_nick mx (cl_id c) = true.
Definition inick (s : state) : Prop := norm s -> forall h c, assoc h (s_heap s) = Some c -> nickok (cf_maxnick (s_conf s)) c.
Lemma nickok_key : forall mx c c', cl_conn c' = cl_conn c -> cl_type c' = cl_type c -> cl_id c' = cl_id c -> nickok mx c -> nickok mx c'.
Proof. unfold nickok. intros mx c c' -> -> ->. auto. Qed.
Lemma nickok_same : forall mx c c', cl_same c c' -> nickok mx c -> nickok mx c'.
Proof. intros mx c c' [x ->]. apply nickok_key; reflexivity. Qed.
Lemma inick_back : forall s s', s_conf s' = s_conf s -> (norm s' -> norm s) ->
  (norm s' -> forall h c', assoc h (s_heap s') = Some c' -> nickok (cf_maxnick (s_conf s)) c' \/ exists c, assoc h (s_heap s) = Some c /\ (nickok (cf_maxnick (s_conf s)) c -> nickok (cf_maxnick (s_conf s)) c')) ->
  inick s -> inick s'.
Proof. intros s s' E N H I Nm h c' Hc. rewrite E. destruct (H Nm _ _ Hc) as [K|(c & Hc0 & K)]; auto. apply K. apply (I (N Nm) _ _ Hc0). Qed.
Lemma inick_fheap : forall s s', s_conf s' = s_conf s -> (norm s' -> norm s) -> fheap s s' -> inick s -> inick s'.
Proof.
  intros s s' E N F. apply inick_back; auto. intros _ h c' Hc. right. pose proof (fh_cli _ _ F h) as A. rewrite Hc in A. destruct (assoc h (s_heap s)) as [c|]; [|destruct A].
  exists c. split; auto. apply nickok_same. auto.
Qed.
#[export] Instance inick_wr : WrSub (also wfn inick).
Proof.
  apply also_wr; [exact _|]. intros s s' H _ I. assert (W : wr s s') by (apply rt_step; auto). apply (inick_fheap s); auto; [apply fconf_wr; auto|apply norm_fodd, fodd_wr; auto|apply fheap_wr; auto].
Qed.
Lemma norm_step : forall l s s', compo l = false -> wf s -> pstep l s s' -> norm s' -> norm s.
Proof. intros l s s' C W H. apply norm_incl. eapply odd_step; eauto. Qed.
Lemma inick_frame : forall l, theap l = false -> compo l = false -> PS l (pres wfn) -> PS l (also wfn inick).
Proof.
  intros l T N P s s' H W. split; [exact (P s s' H W)|]. destruct W as [[W _] _ _ _]. apply inick_fheap.
  - exact (conf_step l s s' N W H).
  - eapply norm_step; eauto.
  - eapply frame_heap; eauto.
Qed.
#[export] Hint Extern 1 (PS _ (also wfn inick)) => (apply inick_frame; [reflexivity|reflexivity|exact _]) : typeclass_instances.
Lemma inick_set : forall h f c s, assoc h (s_heap s) = Some c -> (nickok (cf_maxnick (s_conf s)) c -> nickok (cf_maxnick (s_conf s)) (f c)) -> inick s -> inick (set_cli h f s).
Proof.
  intros h f c s Hc Hf. apply inick_back; auto. intros _ x c' Hx. right. unfold set_cli in Hx. cbn [s_heap set_s_heap] in Hx. rewrite assoc_aupd in Hx. destruct (Nat.eqb_spec h x).
  - subst x. rewrite Hc in Hx. inversion Hx; subst. eauto.
  - eauto.
Qed.
#[export] Instance inick_meta : PS L_meta (also wfn inick).
Proof. apply also_ps; [exact _|]. intros s s' H W I. inversion H; subst. eapply inick_set; eauto. destruct (H1 c). apply nickok_key; auto. Qed.
#[export] Instance inick_intro : PS L_intro (also wfn inick).
Proof. apply also_ps; [exact _|]. intros s s' H W I. inversion H; subst. eapply inick_set; eauto. Qed.
#[export] Instance inick_umode : PS L_umode (also wfn inick).
Proof. apply also_ps; [exact _|]. intros s s' H W I. inversion H; subst; (eapply inick_set; eauto). Qed.
#[export] Instance inick_oper : PS L_oper (also wfn inick).
Proof. apply also_ps; [exact _|]. intros s s' H W I. inversion H; subst; (eapply inick_set; eauto). Qed.
(** changing the case of a valid nickname *)
Definition case_b (f : ascii -> bool) : bool := forallb (fun n => let c := ascii_of_nat n in Bool.eqb (f c) (f (tolower c))) (seq 0 256).
Lemma case_ok : forall f, case_b f = true -> forall a b, tolower a = tolower b -> f a = f b.
Proof.
  intros f H a b E. assert (K : forall c, f c = f (tolower c)).
  { intro c. unfold case_b in H. rewrite forallb_forall in H. specialize (H (nat_of_ascii c)). rewrite ascii_nat_embedding in H. apply Bool.eqb_prop. apply H. apply in_seq. pose proof (nat_ascii_bounded c). lia. }
  rewrite (K a), (K b), E. reflexivity.
Qed.
Lemma valid_nick_case : forall mx a b, caseeq a b = true -> valid_nick mx a = valid_nick mx b.
Proof.
  intros mx a b H. apply caseeq_iff in H. unfold valid_nick. f_equal; [f_equal|].
  - f_equal. destruct a as [|x a], b as [|y b]; try discriminate; auto. cbn [hd0]. injection H as E _. apply (case_ok (fun c => strchr0 c goodchars)); [vm_compute; reflexivity|exact E].
  - apply (f_equal (@List.length _)) in H. unfold lower in H. rewrite !map_length in H. rewrite H. reflexivity.
  - revert b H. induction a as [|x a IH]; intros [|y b] H; try discriminate; auto. injection H as E H. cbn [forallb]. f_equal; [|apply IH; exact H]. apply (case_ok nickchar_ok); [vm_compute; reflexivity|exact E].
Qed.
Lemma valid_nick_short : forall mx a, valid_nick mx a = true -> mx <= CLIENT_NICK_LEN -> strlcpy CLIENT_ID_LEN a = a.
Proof.
  intros mx a H L. apply strlcpy_short. unfold valid_nick in H. apply andb_true_iff in H. destruct H as [H _]. apply andb_true_iff in H. destruct H as [_ H]. apply Nat.ltb_lt in H. unfold CLIENT_NICK_LEN, CLIENT_ID_LEN in *. lia.
Qed.
Lemma caseeq_len : forall a b, caseeq a b = true -> List.length a = List.length b.
Proof. intros a b H. apply caseeq_iff in H. apply (f_equal (@List.length _)) in H. unfold lower in H. rewrite !map_length in H. auto. Qed.


#[export] Instance inick_id : PS L_id (also wfn inick).
Proof.
  apply also_ps; [exact _|]. intros s s' H W I. inversion H; subst. eapply inick_set; eauto. intros K. destruct W as [_ _ C [[_ L] _]].
  assert (E : forall u, cl_conn (set_id u id c) = cl_conn c /\ cl_type (set_id u id c) = cl_type c /\ cl_id (set_id u id c) = strlcpy CLIENT_ID_LEN id) by (intros []; auto).
  destruct (E (cf_cloakusertonick (s_conf s))) as (E1 & E2 & E3). unfold nickok in *. rewrite E1, E2, E3. destruct H2 as [X|[X|[X|X]]]; auto.
  - right. right. right. rewrite (valid_nick_short _ _ X); auto.
  - assert (Lc := cg_id _ (C _ _ H0)). rewrite strlcpy_short by (rewrite <- (caseeq_len _ _ X); auto). destruct K as [K|[K|[[K1 K2]|K]]]; auto.
    + right. right. left. split; auto. rewrite K1 in X. apply caseeq_len in X. destruct id; auto. discriminate.
    + right. right. right. rewrite <- (valid_nick_case _ _ _ X). auto.
Qed.
#[export] Instance inick_type : PS L_type (also wfn inick).
Proof.
  apply also_ps; [exact _|]. intros s s' H W I. apply type_eq in H. destruct H as (h & c & t & tok & a & b & Hc & Hk & _ & ->).
  apply (inick_back s).
  - stcbn. ifs; reflexivity.
  - apply norm_incl. stcbn. ifs; cbn; intros x Hx; cbn; auto.
  - intros Nm x c' Hx. assert (Hx' : assoc x (aupd h (typed t tok) (s_heap s)) = Some c') by (revert Hx; stcbn; ifs; auto). rewrite assoc_aupd in Hx'. destruct (Nat.eqb_spec h x); eauto.
    subst x. rewrite Hc in Hx'. inversion Hx'; subst c'. right. exists c. split; auto. intro K. clear Hx Hx'.
    assert (E : cl_conn (typed t tok c) = cl_conn c /\ cl_type (typed t tok c) = t /\ cl_id (typed t tok c) = cl_id c) by (unfold typed; destruct (ctype_eqb t T_SERVER); auto).
    destruct E as (E1 & E2 & E3). unfold nickok in *. rewrite E1, E2, E3.
    destruct (retype_odd c t) eqn:Eo. { destruct Nm as [Nm _]. destruct Nm. stcbn. left. reflexivity. }
    destruct (tg_nick _ _ _ _ Hk) as [X|[X|[X|[[X1 X2]|[X|[X1 X2]]]]]]; auto.
    + right. left. unfold retype_odd in Eo. rewrite X in Eo. cbn in Eo. destruct t; try discriminate Eo; reflexivity.
    + right. left. unfold retype_odd in Eo. rewrite X1 in Eo. cbn in Eo. destruct (cl_id c); [congruence|]. cbn in Eo. destruct t; try discriminate Eo; reflexivity.
    + destruct K as [K|[K|[[K1 K2]|K]]]; auto; [congruence|]. right. right. left. split; auto. destruct (nickish t); auto. destruct X2; auto; congruence.
  - exact I.
Qed.
Lemma inick_born : forall l, l = L_new \/ l = L_service -> PS l (pres wfn) -> PS l (also wfn inick).
Proof.
  intros l Hl P. apply also_ps; [exact _|]. intros s s' H [[W _] _ _ _] I. apply new_eq in H; auto. destruct H as (c & a & b & Bn & ->). apply (inick_back s); auto.
  intros _ x c' Hx. cbn in Hx. destruct (Nat.eqb x (s_next s)); eauto. inversion Hx; subst. left. left. apply Bn.
Qed.
#[export] Instance inick_new : PS L_new (also wfn inick).
Proof. apply inick_born; auto. exact _. Qed.
#[export] Instance inick_service : PS L_service (also wfn inick).
Proof. apply inick_born; auto. exact _. Qed.
#[export] Instance inick_accept : PS L_accept (also wfn inick).
Proof.
  apply also_ps; [exact _|]. intros s s' H [[W _] _ _ _] I. inversion H; subst. destruct (wf_fresh _ W) as [F1 F2]. apply New_Connection_ok in H1; auto.
  destruct H1 as [(msg & -> & _)|(c & a & b & m & x & F & _ & _ & _ & Wr)]; [exact I|].
  eapply inick_fheap; [apply fconf_wr; exact Wr|apply norm_fodd, fodd_wr; exact Wr|apply fheap_wr; exact Wr|]. apply (inick_back s); auto.
  intros _ y c' Hy. cbn [opened s_heap set_s_heap set_s_conns set_s_next assoc] in Hy. cbn in Hy. destruct (Nat.eqb y (s_next s)); eauto. inversion Hy; subst. left. right. right. left. cbn. split; [apply F|]. rewrite (fr_type _ _ _ _ _ _ _ _ _ _ F). reflexivity.
Qed.
#[export] Instance inick_newserver : PS L_newserver (also wfn inick).
Proof.
  apply also_ps; [exact _|]. intros s s' H [[W _] _ _ _] I. inversion H; subst. destruct (wf_fresh _ W) as [F1 F2]. apply New_Server_ok in H1; auto.
  destruct H1 as [-> |(sv & c & a & b & m & _ & _ & F & ->)]; auto. apply (inick_back s); auto.
  intros _ y c' Hy. cbn in Hy. destruct (Nat.eqb y (s_next s)); eauto. inversion Hy; subst. left. right. left. cbn. rewrite (fr_type _ _ _ _ _ _ _ _ _ _ F). reflexivity.
Qed.
Lemma inick_gone3 : forall C H U s s', gone3 C H U s s' -> inick s -> inick s'.
Proof.
  intros C H U s s' G. apply inick_back.
  - apply (g_conf _ _ _ _ _ G).
  - apply norm_incl. apply (g_odd _ _ _ _ _ G).
  - intros _ x c' Hx. right. assert (E : H x = false). { assert (Ek : In x (map fst (s_heap s'))) by (eapply assoc_key; eauto). rewrite (g_keys _ _ _ _ _ G) in Ek. apply In_nofilter in Ek. tauto. }
    pose proof (g_cli _ _ _ _ _ G x E) as A. rewrite Hx in A. destruct (assoc x (s_heap s)) as [c|]; [|destruct A]. exists c. split; auto. apply nickok_same; auto.
Qed.
#[export] Instance inick_remove : PS L_remove (also wfn inick).
Proof. apply also_ps; [exact _|]. intros s s' H [[W _] _ _ _] B. inversion H; subst. apply Remove_Client_ok in H0; auto. destruct H0 as [G _]. eapply inick_gone3; eauto. Qed.
#[export] Instance inick_destroy : PS L_destroy (also wfn inick).
Proof. apply also_ps; [exact _|]. intros s s' H [[W _] _ _ _] B. inversion H; subst. apply Client_Destroy_ok in H2; auto. destruct H2 as (D & G & _). eapply inick_gone3; eauto. Qed.
#[export] Instance inick_close : PS L_close (also wfn inick).
Proof.
  apply also_ps; [exact _|]. intros s s' H [[W _] _ _ _] B. inversion H; subst. apply Conn_Close_ok in H0; auto. destruct H0 as (cn & Hcn & [[_ ->]|(_ & _ & _ & D & sv & G & _ & HD)]); auto.
  eapply inick_gone3; eauto.
Qed.
#[export] Instance inick_register : PS L_register (also wfn inick).
Proof.
  apply also_ps; [exact _|]. intros s s' H W I Nm. pose proof W as [W2 T _ _].
  assert (O : incl (s_odd s) (s_odd s')). { assert (G : PS L_register grow) by exact _. apply (G s s' H (proj1 W2)). }
  assert (Ns := norm_incl _ _ O Nm). destruct (register_ok _ _ H W2 (T Ns)) as (h & c & i & id & Hc & Hi & Ty & Fr & [L|[R (c' & Hc' & Rg)]]).
  - intros x d Hd. destruct (ls_cli _ _ _ L _ _ Hd) as (_ & d0 & Hd0 & E). rewrite (ls_conf _ _ _ L). eapply nickok_same; eauto.
  - intros x d Hd. rewrite (rs_conf _ _ _ R). destruct (Nat.eq_dec x h) as [->|Nx].
    + assert (d = c') by congruence. subst. right. left. rewrite (rg_type _ _ _ _ Rg). reflexivity.
    + pose proof (rs_cli _ _ _ R x Nx) as A. rewrite Hd in A. destruct (assoc x (s_heap s)) as [d0|] eqn:E; [|destruct A]. eapply nickok_same; eauto.
Qed.
Theorem live_inick : forall s, live s -> inick s.
Proof.
  apply (also_inv wfn); [exact live_wfn| | |].
  - intros c sv t r s CK H _ h x Hx. destruct (boot_me _ _ _ _ _ _ _ H Hx) as (_ & _ & E & _). left. auto.
  - intro e. apply step_rel.
  - apply action_rel.
Qed.
Theorem reachable_inick : forall s, reachable s -> inick s.
Proof. intros s R. apply live_inick. constructor. auto. Qed.
