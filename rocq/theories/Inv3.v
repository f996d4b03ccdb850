(** Invariants of all reachable states, part 5: memberships belong to users and services, and a
    channel without members is persistent. *)
From Coq Require Import List Ascii String ZArith NArith Bool Lia.
From Coq Require Import Relations RelationClasses.
From Verif Require Import Bytes Strl Match Lists Hash ParseReq State Messages Monad Core Write Info Chan Mode Msg Login Oper Server Dispatch Conn Rel RelWrite RelInfo RelBase RelChan RelSrv RelInit RelKey RelCmd RelComp WF RelGone Frame Tree RelReg Inv1 Inv2.
Import ListNotations.
Local Open Scope m_scope.

(** ---- memberships ---- *)
Definition imb (s : state) : Prop := forall m, In m (s_members s) ->
  uish s (mb_client m) = true \/ In (O_Member (mb_chan m) (mb_client m)) (s_odd s).
Definition ukeep (s s' : state) : Prop := forall h, uish s h = true -> uish s' h = true.
Lemma imb_step : forall s s', incl (s_odd s) (s_odd s') -> ukeep s s' ->
  (forall m, In m (s_members s') -> (exists m0, In m0 (s_members s) /\ mpair m0 = mpair m) \/ uish s' (mb_client m) = true \/ In (O_Member (mb_chan m) (mb_client m)) (s_odd s')) ->
  imb s -> imb s'.
Proof.
  intros s s' I K H B m Hm. destruct (H m Hm) as [(m0 & Hm0 & E)|[|]]; auto. assert (E1 : mb_client m0 = mb_client m) by (apply (f_equal fst) in E; exact E). assert (E2 : mb_chan m0 = mb_chan m) by (apply (f_equal snd) in E; exact E). rewrite <- E1, <- E2. destruct (B _ Hm0); auto.
Qed.
Lemma ukeep_fheap : forall s s', fheap s s' -> ukeep s s'.
Proof. intros s s' F h. unfold uish. pose proof (fh_cli _ _ F h) as A. destruct (assoc h (s_heap s)), (assoc h (s_heap s')); cbn in A; try contradiction; auto. destruct A as [y ->]. auto. Qed.
Lemma ukeep_eq : forall s s', s_heap s' = s_heap s -> ukeep s s'.
Proof. intros s s' E h. unfold uish. rewrite E. auto. Qed.
Lemma ukeep_set : forall h f s, (forall c, assoc h (s_heap s) = Some c -> userish (cl_type c) = true -> userish (cl_type (f c)) = true) -> ukeep s (set_cli h f s).
Proof.
  intros h f s H x. unfold uish, set_cli. cbn [s_heap set_s_heap]. rewrite assoc_aupd. destruct (Nat.eqb_spec h x); auto. subst x. destruct (assoc h (s_heap s)) eqn:E; cbn; auto.
Qed.
Lemma ukeep_new : forall s s' c, wf s -> s_heap s' = (s_next s, c) :: s_heap s -> ukeep s s'.
Proof.
  intros s s' c W E h. unfold uish. rewrite E. cbn. destruct (Nat.eqb_spec h (s_next s)); auto. subst. destruct (assoc (s_next s) (s_heap s)) eqn:A; [|discriminate].
  apply assoc_key in A. destruct (wf_fresh _ W). contradiction.
Qed.
Lemma imb_same : forall s s', incl (s_odd s) (s_odd s') -> ukeep s s' -> s_members s' = s_members s -> imb s -> imb s'.
Proof. intros s s' I K E. apply imb_step; auto. intros m Hm. left. exists m. rewrite E in Hm. auto. Qed.
#[export] Instance imb_wr : WrSub (also wf2 imb).
Proof.
  apply also_wr; [exact _|]. intros s s' H _ B. assert (W : wr s s') by (apply rt_step; auto). apply (imb_same s); auto.
  - rewrite (fodd_wr _ _ W). apply incl_refl.
  - apply ukeep_fheap, fheap_wr, W.
  - apply (fmb_wr _ _ W).
Qed.
Lemma imb_frame : forall l, theap l = false -> tmb l = false -> compo l = false -> PS l (pres wf2) -> PS l (also wf2 imb).
Proof.
  intros l T M N P s s' H W. split; [exact (P s s' H W)|]. intro B. destruct W as [W _]. assert (Nl : l <> L_newlocal) by (intros ->; discriminate).
  apply (imb_same s); auto.
  - eapply odd_step; eauto.
  - apply ukeep_fheap. eapply frame_heap; eauto.
  - eapply frame_mb; eauto.
Qed.
#[export] Hint Extern 1 (PS _ (also wf2 imb)) => (apply imb_frame; [reflexivity|reflexivity|reflexivity|exact _]) : typeclass_instances.
Lemma imb_cli : forall l, tmb l = false -> compo l = false -> (forall s s', wf s -> pstep l s s' -> ukeep s s') -> PS l (pres wf2) -> PS l (also wf2 imb).
Proof.
  intros l M N K P s s' H W. split; [exact (P s s' H W)|]. intro B. destruct W as [W _]. assert (Nl : l <> L_newlocal) by (intros ->; discriminate).
  apply (imb_same s); auto.
  - eapply odd_step; eauto.
  - eapply frame_mb; eauto.
Qed.
#[export] Instance imb_meta : PS L_meta (also wf2 imb).
Proof. apply imb_cli; auto; [|exact _]. intros s s' _ H. inversion H; subst. apply ukeep_set. intros x _. destruct (H1 x). congruence. Qed.
#[export] Instance imb_id : PS L_id (also wf2 imb).
Proof. apply imb_cli; auto; [|exact _]. intros s s' _ H. inversion H; subst. apply ukeep_set. intros x _. unfold set_id. ifs; auto. Qed.
#[export] Instance imb_idany : PS L_idany (also wf2 imb).
Proof. apply imb_cli; auto; [|exact _]. intros s s' _ H. inversion H; subst. apply ukeep_set. intros x _. unfold set_id. ifs; auto. Qed.
#[export] Instance imb_umode : PS L_umode (also wf2 imb).
Proof. apply imb_cli; auto; [|exact _]. intros s s' _ H. inversion H; subst; apply ukeep_set; auto. Qed.
#[export] Instance imb_oper : PS L_oper (also wf2 imb).
Proof. apply imb_cli; auto; [|exact _]. intros s s' _ H. inversion H; subst; apply ukeep_set; auto. Qed.
#[export] Instance imb_intro : PS L_intro (also wf2 imb).
Proof. apply imb_cli; auto; [|exact _]. intros s s' _ H. inversion H; subst; apply ukeep_set; auto. Qed.
#[export] Instance imb_type : PS L_type (also wf2 imb).
Proof.
  apply imb_cli; auto; [|exact _]. intros s s' _ H. apply type_eq in H. destruct H as (h & c & t & tok & a & b & Hc & Hk & _ & ->).
  intros x Hx. apply (ukeep_set h (typed t tok) s) in Hx.
  - revert Hx. unfold uish. stcbn. ifs; auto.
  - intros c0 H0 U. assert (c0 = c) by congruence. subst. destruct (tg_members _ _ _ _ Hk) as [E|E]; [congruence|]. unfold typed. destruct (ctype_eqb t T_SERVER); auto.
Qed.
#[export] Instance imb_new : PS L_new (also wf2 imb).
Proof. apply imb_cli; auto; [|exact _]. intros s s' W H. apply new_eq in H; auto. destruct H as (c & a & b & _ & ->). eapply ukeep_new; eauto. reflexivity. Qed.
#[export] Instance imb_service : PS L_service (also wf2 imb).
Proof. apply imb_cli; auto; [|exact _]. intros s s' W H. apply new_eq in H; auto. destruct H as (c & a & b & _ & ->). eapply ukeep_new; eauto. reflexivity. Qed.
#[export] Instance imb_accept : PS L_accept (also wf2 imb).
Proof.
  apply imb_cli; auto; [|exact _]. intros s s' W H. inversion H; subst. destruct (wf_fresh _ W) as [F1 F2]. apply New_Connection_ok in H1; auto.
  destruct H1 as [(msg & -> & _)|(c & a & b & m & x & F & _ & _ & _ & Wr)]. { apply ukeep_eq. reflexivity. }
  intros h Hh. apply (ukeep_fheap _ _ (fheap_wr _ _ Wr)). eapply ukeep_new; [exact W| |exact Hh]. reflexivity.
Qed.
#[export] Instance imb_newserver : PS L_newserver (also wf2 imb).
Proof.
  apply imb_cli; auto; [|exact _]. intros s s' W H. inversion H; subst. destruct (wf_fresh _ W) as [F1 F2]. apply New_Server_ok in H1; auto.
  destruct H1 as [-> |(sv & c & a & b & m & _ & _ & F & ->)]; [apply ukeep_eq; reflexivity|]. eapply ukeep_new; eauto. reflexivity.
Qed.
#[export] Instance imb_create : PS L_create (also wf2 imb).
Proof.
  apply also_ps; [exact _|]. intros s s' H [W _] B. pose proof (odd_step L_create s s' eq_refl W H) as O. apply create_eq in H. destruct H as (n & h & c & HS & V & Hc & E).
  assert (K : s_heap s' = s_heap s) by (rewrite E; stcbn; ifs; reflexivity). apply (imb_step s); auto using ukeep_eq.
  intros m Hm. rewrite E in Hm. cbn in Hm. destruct Hm as [<- |Hm].
  - right. cbn. unfold uish. rewrite K, Hc. destruct (userish (cl_type c)); auto. right. rewrite E. cbn. auto.
  - left. exists m. split; auto.
Qed.
#[export] Instance imb_addmb : PS L_addmb (also wf2 imb).
Proof.
  apply also_ps; [exact _|]. intros s s' H [W _] B. pose proof (odd_step L_addmb s s' eq_refl W H) as O. inversion H; subst. apply addmb_eq in H1. destruct H1 as (c & cc & Hc & _ & E).
  assert (K : s_heap s' = s_heap s) by (rewrite E; stcbn; ifs; reflexivity). apply (imb_step s); auto using ukeep_eq.
  intros m Hm. rewrite E in Hm. cbn in Hm. destruct Hm as [<- |Hm].
  - right. cbn. unfold uish. rewrite K, Hc. destruct (userish (cl_type c)); auto. right. rewrite E. cbn. auto.
  - left. exists m. split; auto.
Qed.
#[export] Instance imb_mbmode : PS L_mbmode (also wf2 imb).
Proof.
  apply also_ps; [exact _|]. intros s s' H [W _] B. inversion H; subst. apply (imb_step s); auto; [apply incl_refl|apply ukeep_eq; reflexivity|].
  cbn [s_members set_s_members]. intros m0 Hm. apply In_upd_mb in Hm. left. destruct Hm as [|(m1 & X & Y & ->)]; eauto.
Qed.
Lemma imb_gone : forall D s s', gone D s s' -> imb s -> imb s'.
Proof.
  intros D s s' G B m Hm. rewrite (g_members _ _ _ _ _ G) in Hm. apply In_nofilter in Hm. destruct Hm as [Hm HU]. destruct (B _ Hm) as [U|U].
  - destruct (mem D (mb_client m)) eqn:E; cbn in HU; [congruence|]. left. rewrite (gone_uish _ _ _ _ G E). auto.
  - right. apply (g_odd _ _ _ _ _ G). auto.
Qed.
#[export] Instance imb_remove : PS L_remove (also wf2 imb).
Proof.
  apply also_ps; [exact _|]. intros s s' H [W _] B. inversion H; subst. apply Remove_Client_ok in H0; auto. destruct H0 as [G _].
  intros m Hm. rewrite (g_members _ _ _ _ _ G) in Hm. apply In_nofilter in Hm. destruct Hm as [Hm _]. destruct (B _ Hm) as [U|U].
  - left. revert U. unfold uish. pose proof (g_cli _ _ _ _ _ G (mb_client m) eq_refl) as A. destruct (assoc _ (s_heap s)), (assoc _ (s_heap s')); cbn in A; try contradiction; auto. destruct A as [y ->]. auto.
  - right. apply (g_odd _ _ _ _ _ G). auto.
Qed.
#[export] Instance imb_destroy : PS L_destroy (also wf2 imb).
Proof.
  apply also_ps; [exact _|]. intros s s' H [W _] B. inversion H; subst. apply Client_Destroy_ok in H2; auto. destruct H2 as (D & G & _). eapply imb_gone; eauto.
Qed.
#[export] Instance imb_close : PS L_close (also wf2 imb).
Proof.
  apply also_ps; [exact _|]. intros s s' H [W _] B. inversion H; subst. apply Conn_Close_ok in H0; auto. destruct H0 as (cn & Hcn & [[_ ->]|(_ & _ & _ & D & sv & G & _ & HD)]); auto.
  eapply imb_gone; eauto.
Qed.
Theorem live_imb : forall s, live s -> imb s.
Proof.
  apply (also_inv wf2); [exact live_wf2| | |].
  - intros c sv t r s CK H. unfold boot in H. assert (R : rel (also wf2 imb) Channel_InitPredefined) by rel_auto. apply (R _ _ _ H).
    + split; [apply wf_init|]. split; cbn; [discriminate|reflexivity].
    + intros m [].
  - intro e. apply step_rel.
  - apply action_rel.
Qed.
Theorem reachable_imb : forall s, reachable s -> imb s.
Proof. intros s R. apply live_imb. constructor. auto. Qed.

(** ---- channels without members ---- *)
Definition kept (s : state) (ch : chandle) (c : channel) : Prop := memb "P" (ch_modes c) = true \/ (exists m, In m (s_members s) /\ mb_chan m = ch) \/ In (O_Empty ch) (s_odd s).
Definition iempty (s : state) : Prop := forall ch c, assoc ch (s_chans s) = Some c -> kept s ch c.
Lemma iempty_step : forall s s', incl (s_odd s) (s_odd s') ->
  (forall m, In m (s_members s) -> exists m', In m' (s_members s') /\ mb_chan m' = mb_chan m) ->
  (forall ch c', assoc ch (s_chans s') = Some c' -> kept s' ch c' \/ exists c, assoc ch (s_chans s) = Some c /\ (memb "P" (ch_modes c) = true -> memb "P" (ch_modes c') = true)) ->
  iempty s -> iempty s'.
Proof.
  intros s s' I M H B ch c' Hc. destruct (H _ _ Hc) as [K|(c & Hc0 & P)]; auto. destruct (B _ _ Hc0) as [K|[(m & X & Y)|K]]; [left; auto| |right; right; auto].
  destruct (M _ X) as (m' & X' & Y'). right. left. exists m'. split; auto. congruence.
Qed.
#[export] Instance iempty_wr : WrSub (also wf2 iempty).
Proof.
  apply also_wr; [exact _|]. intros s s' H _ B. assert (W : wr s s') by (apply rt_step; auto). apply (iempty_step s); auto.
  - rewrite (fodd_wr _ _ W). apply incl_refl.
  - rewrite (fmb_wr _ _ W). eauto.
  - rewrite (fk_chans _ _ (fchan_wr _ _ W)). eauto.
Qed.
Lemma iempty_frame : forall l, tchan l = false -> tmb l = false -> compo l = false -> PS l (pres wf2) -> PS l (also wf2 iempty).
Proof.
  intros l T M N P s s' H W. split; [exact (P s s' H W)|]. intro B. destruct W as [W _]. assert (Nl : l <> L_newlocal) by (intros ->; discriminate).
  apply (iempty_step s); auto.
  - eapply odd_step; eauto.
  - rewrite (frame_mb l s s' M W H Nl). eauto.
  - rewrite (fk_chans _ _ (frame_chan l s s' T W H Nl)). eauto.
Qed.
#[export] Hint Extern 1 (PS _ (also wf2 iempty)) => (apply iempty_frame; [reflexivity|reflexivity|reflexivity|exact _]) : typeclass_instances.
Lemma iempty_set : forall ch f c s od, assoc ch (s_chans s) = Some c -> incl (s_odd s) od ->
  (memb "P" (ch_modes c) = true -> memb "P" (ch_modes (f c)) = true \/ (exists m, In m (s_members s) /\ mb_chan m = ch) \/ In (O_Empty ch) od) ->
  iempty s -> iempty (set_chan ch f (set_s_odd od s)).
Proof.
  intros ch f c s od Hc I H B. intros x c' Hx. unfold set_chan in Hx. cbn [s_chans set_s_chans set_s_odd] in Hx. rewrite assoc_aupd in Hx. destruct (Nat.eqb_spec ch x).
  - subst x. rewrite Hc in Hx. cbn in Hx. inversion Hx; subst c'. destruct (B _ _ Hc) as [K|[K|K]]; [apply H; auto|right; left; exact K|right; right; apply I; exact K].
  - destruct (B _ _ Hx) as [K|[K|K]]; [left; auto|right; left; exact K|right; right; apply I; exact K].
Qed.
Lemma iempty_set0 : forall ch f c s, assoc ch (s_chans s) = Some c -> (memb "P" (ch_modes c) = true -> memb "P" (ch_modes (f c)) = true) -> iempty s -> iempty (set_chan ch f s).
Proof. intros ch f c s Hc H B. rewrite <- (set_odd_same s) at 1. eapply iempty_set; eauto using incl_refl. Qed.
Lemma memb_add : forall x m c, memb x m = true -> List.length m < CLIENT_MODE_LEN -> memb x (fst (mode_add m c)) = true.
Proof.
  intros x m c H L. unfold mode_add. destruct (strchr0 c m); cbn [fst]; auto. apply memb_In in H. apply memb_In. unfold strlcat. destruct (_ && _); auto.
  destruct (_ <=? _); apply in_or_app; auto.
Qed.
Lemma del_first_keep : forall x c l, x <> c -> In x l -> In x (del_first c l).
Proof. induction l as [|y l IH]; cbn; auto. intros N [E|H]; destruct (Ascii.eqb_spec y c); cbn; auto; congruence. Qed.
Lemma memb_del : forall x m c, x <> c -> memb x m = true -> memb x (fst (mode_del m c)) = true.
Proof. intros x m c N H. unfold mode_del. destruct (strchr0 c m); cbn [fst]; auto. apply memb_In. apply del_first_keep; auto. apply memb_In. auto. Qed.
#[export] Instance iempty_chadd : PS L_chadd (also wf2 iempty).
Proof.
  apply also_ps; [exact _|]. intros s s' H [W _] B. inversion H; subst. eapply iempty_set0; eauto. cbn. unfold mode_add. intro P. destruct (strchr0 m (ch_modes c)); cbn [fst]; auto.
  apply memb_In in P. apply memb_In. unfold strlcat. destruct (_ && _); auto. destruct (_ <=? _); apply in_or_app; auto.
Qed.
#[export] Instance iempty_chdel : PS L_chdel (also wf2 iempty).
Proof.
  apply also_ps; [exact _|]. intros s s' H [W _] B. inversion H; subst. rewrite if_odd_eq. eapply iempty_set; eauto using if_odd_incl. intro P.
  destruct (Ascii.eqb_spec m "P").
  - right. subst m. destruct (existsb _ _) eqn:E; cbn [andb negb].
    + left. apply existsb_exists in E. destruct E as (x & X & Y). apply Nat.eqb_eq in Y. eauto.
    + right. cbn. auto.
  - left. cbn [ch_modes set_ch_modes]. apply memb_del; auto.
Qed.
#[export] Instance iempty_setmodes : PS L_setmodes (also wf2 iempty).
Proof.
  apply also_ps; [exact _|]. intros s s' H [W _] B. inversion H; subst. rewrite if_odd_eq. eapply iempty_set; eauto using if_odd_incl. rewrite H1. discriminate.
Qed.
#[export] Instance iempty_topic : PS L_topic (also wf2 iempty).
Proof. apply also_ps; [exact _|]. intros s s' H W I. inversion H; subst. destruct (H1 c). eapply iempty_set0; eauto. congruence. Qed.
#[export] Instance iempty_key : PS L_key (also wf2 iempty).
Proof. apply also_ps; [exact _|]. intros s s' H W I. inversion H; subst. eapply iempty_set0; eauto. Qed.
#[export] Instance iempty_limit : PS L_limit (also wf2 iempty).
Proof. apply also_ps; [exact _|]. intros s s' H W I. inversion H; subst. eapply iempty_set0; eauto. Qed.
#[export] Instance iempty_keyfile : PS L_keyfile (also wf2 iempty).
Proof. apply also_ps; [exact _|]. intros s s' H W I. inversion H; subst. eapply iempty_set0; eauto. Qed.
#[export] Instance iempty_lists : PS L_lists (also wf2 iempty).
Proof. apply also_ps; [exact _|]. intros s s' H W I. inversion H; subst. eapply iempty_set0; eauto. destruct H1; auto. Qed.
#[export] Instance iempty_create : PS L_create (also wf2 iempty).
Proof.
  apply also_ps; [exact _|]. intros s s' H [W _] B. pose proof (odd_step L_create s s' eq_refl W H) as O. apply create_eq in H. destruct H as (n & h & c & HS & V & Hc & E).
  apply (iempty_step s); auto.
  - intros m Hm. exists m. split; auto. rewrite E. stcbn. ifs; right; auto.
  - intros ch c' Hch. assert (Hch' : assoc ch ((s_chnext s, new_channel n (s_now s)) :: s_chans s) = Some c') by (revert Hch; rewrite E; stcbn; ifs; auto). cbn in Hch'.
    destruct (Nat.eqb_spec ch (s_chnext s)); eauto. left. right. left. exists (mkMember h (s_chnext s) []). subst ch. split; auto. rewrite E. left. reflexivity.
Qed.
#[export] Instance iempty_create_any : PS L_create_any (also wf2 iempty).
Proof.
  apply also_ps; [exact _|]. intros s s' H [W _] B. pose proof (odd_step L_create_any s s' eq_refl W H) as O. apply create_any_eq in H. destruct H as (n & HS & E).
  apply (iempty_step s); auto.
  - intros m Hm. exists m. split; auto. rewrite E. stcbn. ifs; auto.
  - intros ch c' Hch. assert (Hch' : assoc ch ((s_chnext s, new_channel n (s_now s)) :: s_chans s) = Some c') by (revert Hch; rewrite E; stcbn; ifs; auto). cbn in Hch'.
    destruct (Nat.eqb_spec ch (s_chnext s)); eauto. left. right. right. subst ch. rewrite E. stcbn. ifs; cbn; auto.
Qed.
#[export] Instance iempty_create_pre : PS L_create_pre (also wf2 iempty).
Proof.
  apply also_ps; [exact _|]. intros s s' H [W _] B. pose proof (odd_step L_create_pre s s' eq_refl W H) as O. apply create_pre_eq in H; auto. destruct H as (n & m & HS & V & Hm & E).
  apply (iempty_step s); auto.
  - rewrite E. cbn. eauto.
  - rewrite E. intros ch c' Hch. cbn [s_chans set_s_chnext set_s_chans assoc] in Hch. destruct (Nat.eqb_spec ch (s_chnext s)); eauto. left. left. inversion Hch. destruct Hm as [-> | ->]; reflexivity.
Qed.
#[export] Instance iempty_addmb : PS L_addmb (also wf2 iempty).
Proof.
  apply also_ps; [exact _|]. intros s s' H [W _] B. pose proof (odd_step L_addmb s s' eq_refl W H) as O. inversion H; subst. apply addmb_eq in H1. destruct H1 as (c & cc & Hc & _ & E).
  apply (iempty_step s); auto.
  - intros m Hm. exists m. split; auto. rewrite E. stcbn. ifs; right; auto.
  - assert (E1 : s_chans s' = s_chans s) by (rewrite E; stcbn; ifs; reflexivity). rewrite E1. eauto.
Qed.
Lemma upd_mb_keep : forall ch h f l m, (forall m, mpair (f m) = mpair m) -> In m l -> exists m', In m' (upd_mb ch h f l) /\ mb_chan m' = mb_chan m.
Proof.
  intros ch h f l m Hf H. assert (E := upd_mb_pairs ch h f l Hf). apply (in_map mpair) in H. rewrite <- E in H. apply in_map_iff in H. destruct H as (m' & X & Y). exists m'. split; auto. inversion X. auto.
Qed.
#[export] Instance iempty_mbmode : PS L_mbmode (also wf2 iempty).
Proof.
  apply also_ps; [exact _|]. intros s s' H [W _] B. inversion H; subst. apply (iempty_step s); auto; [apply incl_refl| |eauto].
  cbn [s_members set_s_members]. intros m0 Hm. apply upd_mb_keep; auto.
Qed.
Lemma iempty_gone3 : forall C H U s s', gone3 C H U s s' -> iempty s -> iempty s'.
Proof.
  intros C H U s s' G B ch c Hc. destruct (g_chans _ _ _ _ _ G) as (K & E & K1 & K2). rewrite E in Hc.
  assert (X : assoc ch (s_chans s) = Some c /\ K ch = false).
  { rewrite assoc_nofilter in Hc. destruct (K ch); [discriminate|auto]. }
  destruct X as [X X2]. destruct (B _ _ X) as [P|[(m & Hm & Em)|P]]; [left; auto| |right; right; apply (g_odd _ _ _ _ _ G); auto].
  destruct (U m) eqn:EU.
  - destruct (K2 m Hm EU) as [Y|[(c0 & Y1 & Y2)|(m' & Y1 & Y2)]].
    + congruence.
    + left. rewrite Em in Y1. congruence.
    + right. left. exists m'. split; auto. congruence.
  - right. left. exists m. split; auto. rewrite (g_members _ _ _ _ _ G). apply In_nofilter. auto.
Qed.
#[export] Instance iempty_remove : PS L_remove (also wf2 iempty).
Proof. apply also_ps; [exact _|]. intros s s' H [W _] B. inversion H; subst. apply Remove_Client_ok in H0; auto. destruct H0 as [G _]. eapply iempty_gone3; eauto. Qed.
#[export] Instance iempty_destroy : PS L_destroy (also wf2 iempty).
Proof. apply also_ps; [exact _|]. intros s s' H [W _] B. inversion H; subst. apply Client_Destroy_ok in H2; auto. destruct H2 as (D & G & _). eapply iempty_gone3; eauto. Qed.
#[export] Instance iempty_close : PS L_close (also wf2 iempty).
Proof.
  apply also_ps; [exact _|]. intros s s' H [W _] B. inversion H; subst. apply Conn_Close_ok in H0; auto. destruct H0 as (cn & Hcn & [[_ ->]|(_ & _ & _ & D & sv & G & _ & HD)]); auto.
  eapply iempty_gone3; eauto.
Qed.
Theorem live_iempty : forall s, live s -> iempty s.
Proof.
  apply (also_inv wf2); [exact live_wf2| | |].
  - intros c sv t r s CK H. unfold boot in H. assert (R : rel (also wf2 iempty) Channel_InitPredefined) by rel_auto. apply (R _ _ _ H).
    + split; [apply wf_init|]. split; cbn; [discriminate|reflexivity].
    + intros ch c0 Hc. discriminate.
  - intro e. apply step_rel.
  - apply action_rel.
Qed.
Theorem reachable_iempty : forall s, reachable s -> iempty s.
Proof. intros s R. apply live_iempty. constructor. auto. Qed.
