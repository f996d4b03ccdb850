(** Invariants of all reachable states, part 3: every client structure is well formed (sizes of the
    fields, hash value of the name, sets of modes). *)
From Coq Require Import List Ascii String ZArith NArith Bool Lia.
From Coq Require Import Relations RelationClasses.
From Verif Require Import Bytes Strl Match Lists Hash ParseReq State Messages Monad Core Write Info Chan Mode Msg Login Oper Server Dispatch Conn Rel RelWrite RelInfo RelBase RelChan RelSrv RelInit RelKey RelCmd RelComp WF RelGone Frame Tree RelReg.
Import ListNotations.
Local Open Scope m_scope.

(** ---- strings of modes ---- *)
Definition modeset (n : nat) (m : bytes) : Prop := NoDup m /\ List.length m < n.
Lemma memb_In : forall x l, memb x l = true <-> In x l.
Proof.
  intros x l. unfold memb. rewrite existsb_exists. split.
  - intros (y & Hy & E). apply Ascii.eqb_eq in E. subst. auto.
  - intro H. exists x. split; auto. apply Ascii.eqb_refl.
Qed.
Lemma del_first_In : forall c l x, In x (del_first c l) -> In x l.
Proof. induction l as [|y l IH]; cbn; auto. intros x. destruct (Ascii.eqb y c); cbn; auto. intros [->|H]; auto. Qed.
Lemma del_first_NoDup : forall c l, NoDup l -> NoDup (del_first c l).
Proof.
  induction l as [|y l IH]; cbn; intro H; auto. inversion H; subst. destruct (Ascii.eqb y c); auto. constructor; auto. intro I. apply del_first_In in I. auto.
Qed.
Lemma del_first_len : forall c l, List.length (del_first c l) <= List.length l.
Proof. induction l as [|y l IH]; cbn; auto. destruct (Ascii.eqb y c); cbn; lia. Qed.
Lemma mode_add_len : forall m c, List.length m < CLIENT_MODE_LEN -> List.length (fst (mode_add m c)) < CLIENT_MODE_LEN.
Proof.
  intros m c H. unfold mode_add. destruct (strchr0 c m); cbn [fst]; auto. pose proof (strlcat_length CLIENT_MODE_LEN m [c]). unfold CLIENT_MODE_LEN in *. lia.
Qed.
Lemma mode_del_len : forall m c n, List.length m < n -> List.length (fst (mode_del m c)) < n.
Proof. intros m c n H. unfold mode_del. destruct (strchr0 c m); cbn [fst]; auto. pose proof (del_first_len c m). lia. Qed.
Lemma NoDup_snoc : forall (m : bytes) c, NoDup m -> ~ In c m -> NoDup (m ++ [c]).
Proof.
  induction m as [|x m IH]; cbn; intros c N H. { constructor; auto. } inversion N; subst. constructor.
  - rewrite in_app_iff. cbn. intros [I|[E|[]]]; subst; auto.
  - apply IH; auto.
Qed.
Lemma mode_add_NoDup : forall m c, NoDup m -> NoDup (fst (mode_add m c)).
Proof.
  intros m c N. unfold mode_add. destruct (strchr0 c m) eqn:E; cbn [fst]; auto. unfold strchr0 in E. apply orb_false_iff in E. destruct E as [_ E].
  assert (H : ~ In c m) by (intro H; apply memb_In in H; congruence).
  unfold strlcat. destruct (_ && _); auto. destruct (_ <=? _); [|apply NoDup_snoc; auto].
  cbn [List.length]. destruct (CLIENT_MODE_LEN - List.length m - 1) as [|k]; cbn [firstn]; [rewrite app_nil_r; auto|]. destruct k; cbn [firstn]; apply NoDup_snoc; auto.
Qed.
Lemma mode_del_NoDup : forall m c, NoDup m -> NoDup (fst (mode_del m c)).
Proof. intros m c N. unfold mode_del. destruct (strchr0 c m); cbn [fst]; auto. apply del_first_NoDup; auto. Qed.

(** ---- clients ---- *)
Record cgood (c : client) : Prop := mk_cgood {
  cg_id : List.length (cl_id c) < CLIENT_ID_LEN;
  cg_hash : cl_id c = [] \/ cl_hash c = Hash (cl_id c);
  cg_sizes : csizes c;
  cg_modes : List.length (cl_modes c) < CLIENT_MODE_LEN;
  cg_set : cl_conn c <> None -> NoDup (cl_modes c) }.
Definition icli (s : state) : Prop := forall h c, assoc h (s_heap s) = Some c -> cgood c.

Lemma icli_wr : forall s s', wr s s' -> icli s -> icli s'.
Proof.
  intros s s' W I h c' H'. destruct (wr_cli_back _ _ _ _ W H') as (c & y & H & ->). destruct (I _ _ H). split; auto.
  eapply wr_sizes; eauto.
Qed.
Lemma icli_heap : forall s s', s_heap s' = s_heap s -> icli s -> icli s'.
Proof. intros s s' E I h c H. rewrite E in H. eauto. Qed.
Lemma icli_set : forall h f c s, assoc h (s_heap s) = Some c -> (cgood c -> cgood (f c)) -> icli s -> icli (set_cli h f s).
Proof.
  intros h f c s Hc Hf I x c' H'. unfold set_cli in H'. cbn [s_heap set_s_heap] in H'. rewrite assoc_aupd in H'. destruct (Nat.eqb_spec h x); [|eauto].
  subst x. rewrite Hc in H'. cbn in H'. inversion H'; subst. eauto.
Qed.
Lemma icli_new : forall h c s s', s_heap s' = (h, c) :: s_heap s -> cgood c -> icli s -> icli s'.
Proof. intros h c s s' E G I x c' H. rewrite E in H. cbn in H. destruct (Nat.eqb x h); [inversion H; subst; auto|eauto]. Qed.
(** the labels that leave the client structures alone, up to the write layer *)
Lemma frame_heap_eq : forall l s s', theap l = false -> wf s -> pstep l s s' -> exists s1, wr s s1 /\ s_heap s' = s_heap s1.
Proof.
  intros l s s' T W H. destruct l; try discriminate T;
    try (exists s; split; [reflexivity|]; inversion H; subst; reflexivity); try (exists s; split; [reflexivity|]; inversion H; subst; unfold set_chan, if_odd; ifs; reflexivity).
  - exists s. split; [reflexivity|]. apply create_eq in H. destruct H as (n & h & c & _ & _ & _ & ->). stcbn. ifs; reflexivity.
  - exists s. split; [reflexivity|]. apply create_any_eq in H. destruct H as (n & _ & ->). stcbn. ifs; reflexivity.
  - exists s. split; [reflexivity|]. inversion H; subst. apply addmb_eq in H1. destruct H1 as (c & cc & _ & _ & ->). stcbn. ifs; reflexivity.
  - apply whowas_eq in H. destruct H as (s1 & Wr & E). exists s1. split; auto. destruct E as [-> | (sl & e & ->)]; reflexivity.
Qed.
#[export] Instance icli_WS : WrSub (also wf icli).
Proof. apply also_wr; [exact _|]. intros s s' H _ I. eapply icli_wr; eauto. apply rt_step. auto. Qed.
Lemma icli_frame : forall l, theap l = false -> PS l (pres wf) -> PS l (also wf icli).
Proof.
  intros l T P s s' H W. split; [exact (P s s' H W)|]. intro I. destruct (frame_heap_eq l s s' T W H) as (s1 & Wr & E). eapply icli_heap; eauto. eapply icli_wr; eauto.
Qed.
#[export] Hint Extern 1 (PS _ (also wf icli)) => (apply icli_frame; [reflexivity|exact _]) : typeclass_instances.
Lemma cg_cmeta : forall c c', cmeta c c' -> cgood c -> cgood c'.
Proof. intros c c' [] []. split; rewrite ?me_id, ?me_hash, ?me_modes, ?me_conn; auto. Qed.
#[export] Instance icli_meta : PS L_meta (also wf icli).
Proof. apply also_ps; [exact _|]. intros s s' H W I. inversion H; subst. eapply icli_set; eauto. apply cg_cmeta. auto. Qed.
Lemma cg_set_id : forall u id c, cgood c -> cgood (set_id u id c).
Proof.
  intros u id c []. assert (Z := cs_set_id u id c cg_sizes0). assert (L : List.length (strlcpy CLIENT_ID_LEN id) < CLIENT_ID_LEN) by (apply strlcpy_len; unfold CLIENT_ID_LEN; lia).
  split; auto; unfold set_id; destruct u; cbn; auto.
Qed.
#[export] Instance icli_id : PS L_id (also wf icli).
Proof. apply also_ps; [exact _|]. intros s s' H W I. inversion H; subst. eapply icli_set; eauto. apply cg_set_id. Qed.
#[export] Instance icli_idany : PS L_idany (also wf icli).
Proof. apply also_ps; [exact _|]. intros s s' H W I. inversion H; subst. eapply icli_set; eauto. apply cg_set_id. Qed.
#[export] Instance icli_intro : PS L_intro (also wf icli).
Proof. apply also_ps; [exact _|]. intros s s' H W I. inversion H; subst. eapply icli_set; eauto. intros [? ? [] ? ?]. split; auto. split; auto. Qed.
Lemma cg_set_modes : forall m c, List.length m < CLIENT_MODE_LEN -> (NoDup (cl_modes c) -> NoDup m) -> cgood c -> cgood (set_cl_modes m c).
Proof. intros m c L N []. destruct cg_sizes0. split; auto. split; auto. Qed.
#[export] Instance icli_umode : PS L_umode (also wf icli).
Proof.
  apply also_ps; [exact _|]. intros s s' H W I. inversion H; subst; (eapply icli_set; eauto; intro G; apply cg_set_modes; auto).
  - apply mode_add_len. apply G.
  - apply mode_add_NoDup.
  - apply mode_del_len. apply G.
  - apply mode_del_NoDup.
Qed.
#[export] Instance icli_oper : PS L_oper (also wf icli).
Proof.
  apply also_ps; [exact _|]. intros s s' H W I. inversion H; subst; (eapply icli_set; eauto; intro G; apply cg_set_modes; auto).
  - apply mode_add_len. apply G.
  - apply mode_add_NoDup.
Qed.
Lemma cg_typed : forall t tok c, cgood c -> cgood (typed t tok c).
Proof. intros t tok c [? ? [] ? ?]. unfold typed. destruct (ctype_eqb t T_SERVER); split; auto; split; auto. Qed.
#[export] Instance icli_type : PS L_type (also wf icli).
Proof.
  apply also_ps; [exact _|]. intros s s' H W I. apply type_eq in H. destruct H as (h & c & t & tok & a & b & Hc & _ & _ & ->).
  apply (icli_heap (set_cli h (typed t tok) s)). { stcbn. ifs; reflexivity. } eapply icli_set; eauto. apply cg_typed.
Qed.
Lemma cg_born : forall c s, born_remote c s -> cgood c.
Proof.
  intros c s []. split; auto.
  - destruct bn_modes as [m ->]. apply strlcpy_len. unfold CLIENT_MODE_LEN; lia.
  - congruence.
Qed.
Lemma icli_born : forall l, l = L_new \/ l = L_service -> PS l (pres wf) -> PS l (also wf icli).
Proof.
  intros l Hl P. apply also_ps; [exact _|]. intros s s' H W I. apply new_eq in H; auto. destruct H as (c & a & b & Bn & ->). eapply icli_new; [reflexivity| |exact I]. eapply cg_born; eauto.
Qed.
#[export] Instance icli_L_new : PS L_new (also wf icli).
Proof. apply icli_born; auto. exact _. Qed.
#[export] Instance icli_service : PS L_service (also wf icli).
Proof. apply icli_born; auto. exact _. Qed.
Lemma cg_local : forall i p top t hops tok s c, fresh_client (Some i) p top t None None hops tok s c -> cgood c.
Proof.
  intros i p top t hops tok s c []. split; auto; rewrite ?fr_id, ?fr_modes; auto.
  - cbn. unfold CLIENT_ID_LEN; lia.
  - cbn. unfold CLIENT_MODE_LEN; lia.
  - intros _. constructor.
Qed.
#[export] Instance icli_accept : PS L_accept (also wf icli).
Proof.
  apply also_ps; [exact _|]. intros s s' H W I. inversion H; subst. destruct (wf_fresh _ W) as [F1 F2]. apply New_Connection_ok in H1; auto.
  destruct H1 as [(msg & -> & _)|(c & a & b & m & x & F & _ & _ & Lx & Wr)]. { apply (icli_heap s); auto. }
  eapply icli_wr; eauto. eapply icli_new; [reflexivity| |exact I]. apply cg_local in F. destruct F. split; auto. apply cs_host; auto.
Qed.
#[export] Instance icli_newserver : PS L_newserver (also wf icli).
Proof.
  apply also_ps; [exact _|]. intros s s' H W I. inversion H; subst. destruct (wf_fresh _ W) as [F1 F2]. apply New_Server_ok in H1; auto.
  destruct H1 as [-> |(sv & c & a & b & m & _ & _ & F & ->)]; auto. eapply icli_new; [reflexivity| |exact I]. apply cg_local in F. destruct F as [? ? [] ? ?]. split; auto. split; auto.
Qed.
#[export] Instance icli_unlink : PS L_unlink (also wf icli).
Proof. apply also_ps; [exact _|]. intros s s' H W I. inversion H; subst. apply (icli_heap s); auto. Qed.
#[export] Instance icli_free : PS L_free (also wf icli).
Proof.
  apply also_ps; [exact _|]. intros s s' H W I. apply free_eq in H. destruct H as (h & c & _ & _ & ->). intros x c' Hx. cbn [s_heap set_s_heap] in Hx. rewrite assoc_adel in Hx. destruct (Nat.eqb x h); [discriminate|eauto].
Qed.
Theorem live_icli : forall s, live s -> icli s.
Proof.
  apply (also_inv wf); [exact live_wf| | |].
  - intros c sv t r s CK H. unfold boot in H. assert (R : rel (also wf icli) Channel_InitPredefined) by rel_auto. apply (R _ _ _ H).
    + apply wf_init.
    + unfold init_state. intros h x Hh. cbn [s_heap assoc] in Hh. destruct (Nat.eqb h This_Server); [|discriminate]. inversion Hh. clear Hh.
      match goal with |- cgood (set_info _ _ (set_id _ _ ?x)) => assert (G : cgood x) end.
      { destruct CK as (_ & _ & _ & _ & _ & CK & _). split; cbn; auto; try (unfold CLIENT_ID_LEN, CLIENT_MODE_LEN; lia). 2: intros _; constructor.
        split; cbn; auto; try (unfold CLIENT_HOST_LEN, CLIENT_USER_LEN, CLIENT_INFO_LEN, CLIENT_FLAGS_LEN; lia). }
      apply (cg_set_id (cf_cloakusertonick c) (cf_servername c)) in G. destruct G. pose proof (cs_set_info (cf_cloakusertonick c) (cf_serverinfo c) _ cg_sizes0).
      split; auto; unfold set_info; destruct (cf_cloakusertonick c); auto.
  - intro e. apply step_rel.
  - apply action_rel.
Qed.
Theorem reachable_icli : forall s, reachable s -> icli s.
Proof. intros s R. apply live_icli. constructor. auto. Qed.
