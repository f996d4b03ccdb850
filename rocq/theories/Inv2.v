(** Invariants of all reachable states, part 4: every channel is well formed (sizes of the
    fields, hash value of the name, set of modes, valid name), channel names and memberships are unique. *)
From Coq Require Import List Ascii String ZArith NArith Bool Lia.
From Coq Require Import Relations RelationClasses.
From Verif Require Import Bytes Strl Match Lists Hash ParseReq State Messages Monad Core Write Info Chan Mode Msg Login Oper Server Dispatch Conn Rel RelWrite RelInfo RelBase RelChan RelSrv RelInit RelKey RelCmd RelComp WF RelGone Frame Tree RelReg Inv1.
Import ListNotations.
Local Open Scope m_scope.

(** ---- the history only grows ---- *)
Definition grow (s s' : state) : Prop := wf s -> wf s' /\ incl (s_odd s) (s_odd s').
#[export] Instance grow_po : PreOrder grow.
Proof.
  split; [intros s W; split; auto; apply incl_refl|]. intros a b c H1 H2 W. destruct (H1 W) as [W1 I1]. destruct (H2 W1) as [W2 I2]. split; auto. eapply incl_tran; eauto.
Qed.
#[export] Instance grow_wr : WrSub grow.
Proof. intros s s' H W. split; [exact (wf_wr s s' H W)|]. assert (E : fodd s s') by (apply fodd_wr, rt_step; auto). rewrite E. apply incl_refl. Qed.
Lemma if_odd_incl : forall b o s, incl (s_odd s) (s_odd (if_odd b o s)).
Proof. intros [] o s x H; cbn; auto. Qed.
Definition compo (l : lab) : bool := match l with L_remove | L_destroy | L_close | L_register | L_newlocal => true | _ => false end.
Lemma odd_step : forall l s s', compo l = false -> wf s -> pstep l s s' -> incl (s_odd s) (s_odd s').
Proof.
  intros l s s' Cl W H. destruct (todd l) eqn:T. 2: { rewrite (frame_odd l s s'); auto; [apply incl_refl|]. intros ->. discriminate. }
  destruct l; try discriminate T; try discriminate Cl.
  - apply type_eq in H. destruct H as (h & c & t & tok & a & b & _ & _ & _ & ->). apply if_odd_incl.
  - apply type0_type, type_eq in H. destruct H as (h & c & t & tok & a & b & _ & _ & _ & ->). apply if_odd_incl.
  - apply new_eq in H; auto. destruct H as (c & a & b & _ & ->). apply incl_refl.
  - apply new_eq in H; auto. destruct H as (c & a & b & _ & ->). apply incl_refl.
  - apply create_eq in H. destruct H as (n & h & c & _ & _ & _ & ->). stcbn. ifs; cbn; intros x Hx; cbn; auto.
  - apply create_any_eq in H. destruct H as (n & _ & ->). stcbn. ifs; cbn; intros x Hx; cbn; auto.
  - inversion H; subst. apply addmb_eq in H1. destruct H1 as (c & cc & _ & _ & ->). stcbn. ifs; cbn; intros x Hx; cbn; auto.
  - inversion H; subst. stcbn. ifs; cbn; intros x Hx; cbn; auto.
  - inversion H; subst. stcbn. ifs; cbn; intros x Hx; cbn; auto.
  - apply free_eq in H. destruct H as (h & c & _ & _ & ->). apply if_odd_incl.
Qed.
Lemma grow_ps : forall l, compo l = false -> PS l (pres wf) -> PS l grow.
Proof. intros l Cl P s s' H W. split; [exact (P s s' H W)|]. eapply odd_step; eauto. Qed.
#[export] Hint Extern 1 (PS _ grow) => (apply grow_ps; [reflexivity|exact _]) : typeclass_instances.
Theorem odd_grows : forall e s s', reachable s -> step e s = Ok tt s' -> incl (s_odd s) (s_odd s').
Proof. intros e s s' R H. assert (G : rel grow (step e)) by apply step_rel. apply (G _ _ _ H). apply reachable_wf. auto. Qed.

(** ---- channels ---- *)
Record chgood (od : list oddity) (ch : chandle) (c : channel) : Prop := mk_chgood {
  kg_hash : ch_hash c = Hash (ch_name c);
  kg_name : List.length (ch_name c) < CHANNEL_NAME_LEN;
  kg_valid : valid_chan (ch_name c) = true \/ In (O_Chan ch) od;
  kg_modes : List.length (ch_modes c) < CHANNEL_MODE_LEN;
  kg_set : NoDup (ch_modes c) \/ In (O_Modes ch) od;
  kg_topic : List.length (ch_topic c) < COMMAND_LEN;
  kg_who : List.length (ch_topic_who c) < CLIENT_NICK_LEN;
  kg_key : List.length (ch_key c) < CLIENT_PASS_LEN;
  kg_max : (0 <= ch_maxusers c < 18446744073709551616)%Z;
  kg_once : noonce (ch_bans c) /\ noonce (ch_excepts c) }.
Record ichan (s : state) : Prop := mk_ichan {
  ic_good : forall ch c, assoc ch (s_chans s) = Some c -> chgood (s_odd s) ch c;
  ic_uniq : forall ch1 c1 ch2 c2, assoc ch1 (s_chans s) = Some c1 -> assoc ch2 (s_chans s) = Some c2 -> caseeq (ch_name c1) (ch_name c2) = true ->
    ch1 = ch2 \/ In (O_Chan ch1) (s_odd s) \/ In (O_Chan ch2) (s_odd s);
  ic_mb : forall m, In m (s_members s) -> NoDup (mb_modes m) /\ List.length (mb_modes m) < CLIENT_MODE_LEN }.
Lemma chgood_incl : forall od od' ch c, incl od od' -> chgood od ch c -> chgood od' ch c.
Proof. intros od od' ch c I []. split; auto; [destruct kg_valid0|destruct kg_set0]; auto. Qed.
Lemma ichan_step : forall s s', incl (s_odd s) (s_odd s') ->
  (forall ch c', assoc ch (s_chans s') = Some c' -> exists c, assoc ch (s_chans s) = Some c /\ ch_name c' = ch_name c /\ (chgood (s_odd s) ch c -> chgood (s_odd s') ch c')) ->
  (forall m, In m (s_members s') -> In m (s_members s) \/ NoDup (mb_modes m) /\ List.length (mb_modes m) < CLIENT_MODE_LEN) -> ichan s -> ichan s'.
Proof.
  intros s s' I H M [G U Mb]. split.
  - intros ch c' Hc. destruct (H _ _ Hc) as (c & Hc0 & _ & K). auto.
  - intros ch1 c1' ch2 c2' H1 H2 E. destruct (H _ _ H1) as (c1 & X1 & N1 & _). destruct (H _ _ H2) as (c2 & X2 & N2 & _). rewrite N1, N2 in E. destruct (U _ _ _ _ X1 X2 E) as [|[|]]; auto.
  - intros m Hm. destruct (M m Hm); auto.
Qed.
Lemma ichan_set : forall ch f c s od, assoc ch (s_chans s) = Some c -> incl (s_odd s) od -> ch_name (f c) = ch_name c -> (chgood (s_odd s) ch c -> chgood od ch (f c)) -> ichan s -> ichan (set_chan ch f (set_s_odd od s)).
Proof.
  intros ch f c s od Hc I N K. apply ichan_step; auto.
  intros x c' Hx. unfold set_chan in Hx. cbn [s_chans set_s_chans set_s_odd] in Hx. rewrite assoc_aupd in Hx. destruct (Nat.eqb_spec ch x).
  - subst x. rewrite Hc in Hx. cbn in Hx. inversion Hx; subst. exists c. auto.
  - exists c'. split; auto. split; auto. apply chgood_incl. exact I.
Qed.
Lemma set_odd_same : forall s, set_s_odd (s_odd s) s = s.
Proof. intros []. reflexivity. Qed.
Lemma ichan_set0 : forall ch f c s, assoc ch (s_chans s) = Some c -> ch_name (f c) = ch_name c -> (chgood (s_odd s) ch c -> chgood (s_odd s) ch (f c)) -> ichan s -> ichan (set_chan ch f s).
Proof. intros ch f c s Hc N K I. pose proof (ichan_set ch f c s (s_odd s) Hc (incl_refl _) N K I) as H. rewrite set_odd_same in H. exact H. Qed.
Lemma search_none : forall name s, Channel_Search name s = Ok None s -> forall ch c, assoc ch (s_chans s) = Some c -> chan_is name c = false.
Proof.
  intros name s H ch c Hc. unfold Channel_Search, gets in H. inversion H. destruct (find (fun p => chan_is name (snd p)) (s_chans s)) eqn:E; [discriminate|].
  apply assoc_In in Hc. apply (find_none _ _ E) in Hc. exact Hc.
Qed.
Lemma ichan_new : forall name m od s s' c, s_odd s' = od -> s_chans s' = (s_chnext s, c) :: s_chans s -> c = set_ch_modes m (new_channel name (s_now s)) ->
  (forall mb, In mb (s_members s') -> In mb (s_members s) \/ mb_modes mb = []) ->
  Channel_Search name s = Ok None s -> wf s -> NoDup m -> List.length m < CHANNEL_MODE_LEN ->
  incl (s_odd s) od -> valid_chan name = true \/ In (O_Chan (s_chnext s)) od -> ichan s -> ichan s'.
Proof.
  intros name m od s s' c E1 E2 -> Mb HS W Nm Lm I V [G U M0]. subst od. split.
  - intros ch c Hc. rewrite E2 in Hc. cbn [assoc] in Hc. destruct (Nat.eqb_spec ch (s_chnext s)).
    + inversion Hc; subst. assert (L : List.length (strlcpy CHANNEL_NAME_LEN name) < CHANNEL_NAME_LEN) by (apply strlcpy_len; unfold CHANNEL_NAME_LEN; lia).
      split; cbn; auto; try (unfold COMMAND_LEN, CLIENT_NICK_LEN, CLIENT_PASS_LEN; lia); try (split; intros ? []; fail). destruct V as [V|V]; auto. left.
      rewrite strlcpy_short; auto. unfold valid_chan in V. apply andb_true_iff in V. destruct V as [V _]. apply andb_true_iff in V. destruct V as [_ V]. apply Nat.ltb_lt. auto.
    + eapply chgood_incl; eauto.
  - assert (Z : forall ch c, assoc ch (s_chans s) = Some c -> caseeq (ch_name c) (strlcpy CHANNEL_NAME_LEN name) = true -> In (O_Chan (s_chnext s)) (s_odd s')).
    { intros ch c Hc Ec. destruct V as [V|V]; auto. exfalso. rewrite strlcpy_short in Ec. 2: { unfold valid_chan in V. apply andb_true_iff in V. destruct V as [V _]. apply andb_true_iff in V. destruct V as [_ V]. apply Nat.ltb_lt. auto. }
      pose proof (search_none _ _ HS _ _ Hc) as F. unfold chan_is in F. rewrite (kg_hash _ _ _ (G _ _ Hc)), (Hash_case _ _ Ec), N.eqb_refl in F. rewrite caseeq_sym in Ec. cbn in F. congruence. }
    intros ch1 c1 ch2 c2 H1 H2 E. rewrite E2 in H1, H2. cbn [assoc] in H1, H2.
    destruct (Nat.eqb_spec ch1 (s_chnext s)), (Nat.eqb_spec ch2 (s_chnext s)).
    + left. congruence.
    + inversion H1; subst. right. left. cbn [ch_name set_ch_modes new_channel] in E. rewrite caseeq_sym in E. eauto.
    + inversion H2; subst. right. right. cbn [ch_name set_ch_modes new_channel] in E. eauto.
    + destruct (U _ _ _ _ H1 H2 E) as [|[|]]; auto.
  - intros mb Hmb. destruct (Mb _ Hmb) as [|E]; auto. rewrite E. split; [constructor|unfold CLIENT_MODE_LEN; cbn; lia].
Qed.
#[export] Instance ichan_WS : WrSub (also wf ichan).
Proof.
  apply also_wr; [exact _|]. intros s s' H _ I. assert (W : wr s s') by (apply rt_step; auto). destruct (wr_same _ _ W).
  apply (ichan_step s); auto; [rewrite w_odd; apply incl_refl| |rewrite w_members; auto]. rewrite w_chans, w_odd. eauto.
Qed.
Lemma ichan_frame : forall l, tchan l = false -> tmb l = false -> compo l = false -> PS l (pres wf) -> PS l (also wf ichan).
Proof.
  intros l T M N P s s' H W. split; [exact (P s s' H W)|]. intro I. assert (Nl : l <> L_newlocal) by (intros ->; discriminate).
  destruct (frame_chan l s s' T W H Nl) as [E _]. pose proof (frame_mb l s s' M W H Nl) as E2. pose proof (odd_step l s s' N W H) as O.
  apply (ichan_step s); auto; [|rewrite E2; auto]. rewrite E. intros ch c Hc. exists c. split; auto. split; auto. apply chgood_incl. auto.
Qed.
#[export] Hint Extern 1 (PS _ (also wf ichan)) => (apply ichan_frame; [reflexivity|reflexivity|reflexivity|exact _]) : typeclass_instances.
#[export] Instance ichan_create : PS L_create (also wf ichan).
Proof.
  apply also_ps; [exact _|]. intros s s' H W I. pose proof (odd_step L_create s s' eq_refl W H) as O. apply create_eq in H. destruct H as (n & h & c & HS & V & _ & E).
  eapply (ichan_new n []); [reflexivity| | | |exact HS|exact W|constructor|unfold CHANNEL_MODE_LEN; cbn; lia|exact O|auto|exact I].
  - rewrite E. stcbn. ifs; reflexivity.
  - reflexivity.
  - rewrite E. cbn. intros mb [<- |Hm]; auto.
Qed.
#[export] Instance ichan_create_any : PS L_create_any (also wf ichan).
Proof.
  apply also_ps; [exact _|]. intros s s' H W I. pose proof (odd_step L_create_any s s' eq_refl W H) as O. apply create_any_eq in H. destruct H as (n & HS & E).
  eapply (ichan_new n []); [reflexivity| | | |exact HS|exact W|constructor|unfold CHANNEL_MODE_LEN; cbn; lia|exact O| |exact I].
  - rewrite E. stcbn. ifs; reflexivity.
  - reflexivity.
  - rewrite E. stcbn. ifs; cbn; auto.
  - rewrite E. destruct (valid_chan n); auto. right. cbn. auto.
Qed.
#[export] Instance ichan_create_pre : PS L_create_pre (also wf ichan).
Proof.
  apply also_ps; [exact _|]. intros s s' H W I. pose proof (odd_step L_create_pre s s' eq_refl W H) as O. apply create_pre_eq in H; auto. destruct H as (n & m & HS & V & Hm & E).
  eapply (ichan_new n m); [reflexivity| | | |exact HS|exact W| | |exact O|auto|exact I].
  - rewrite E. reflexivity.
  - reflexivity.
  - rewrite E. auto.
  - destruct Hm as [-> | ->]; repeat constructor; cbn; intuition discriminate.
  - destruct Hm as [-> | ->]; unfold CHANNEL_MODE_LEN; cbn; lia.
Qed.
#[export] Instance ichan_addmb : PS L_addmb (also wf ichan).
Proof.
  apply also_ps; [exact _|]. intros s s' H W I. pose proof (odd_step L_addmb s s' eq_refl W H) as O. inversion H; subst. apply addmb_eq in H1. destruct H1 as (c & cc & _ & _ & E).
  assert (E1 : s_chans s' = s_chans s) by (rewrite E; stcbn; ifs; reflexivity). apply (ichan_step s); auto.
  - rewrite E1. intros x c' Hx. exists c'. split; auto. split; auto. apply chgood_incl. auto.
  - rewrite E. cbn. intros m [<- |Hm]; [right; split; [constructor|unfold CLIENT_MODE_LEN; cbn; lia]|]. left. revert Hm. stcbn. ifs; auto.
Qed.
#[export] Instance ichan_delmb : PS L_delmb (also wf ichan).
Proof.
  apply also_ps; [exact _|]. intros s s' H W I. inversion H; subst. apply (ichan_step s); auto; [apply incl_refl|eauto|]. intros m Hm. left. cbn in Hm. apply del_mb_incl in Hm. auto.
Qed.
#[export] Instance ichan_delchan : PS L_delchan (also wf ichan).
Proof.
  apply also_ps; [exact _|]. intros s s' H W I. inversion H; subst. apply (ichan_step s); auto; [apply incl_refl|]. cbn [s_chans set_s_chans s_odd]. intros x c' Hx. rewrite assoc_adel in Hx. destruct (Nat.eqb x ch); [discriminate|]. eauto.
Qed.
Lemma In_upd_mb : forall ch h f l m, In m (upd_mb ch h f l) -> In m l \/ exists m0, In m0 l /\ is_mb ch h m0 = true /\ m = f m0.
Proof.
  induction l as [|x l IH]; cbn; intros m H; auto. destruct (is_mb ch h x) eqn:E.
  - destruct H as [<- |H]; [|auto]. right. exists x. auto.
  - destruct H as [<- |H]; auto. destruct (IH _ H) as [|(m0 & A & B & C)]; auto. right. exists m0. auto.
Qed.
#[export] Instance ichan_mbmode : PS L_mbmode (also wf ichan).
Proof.
  apply also_ps; [exact _|]. intros s s' H W I. inversion H; subst. apply (ichan_step s); auto; [apply incl_refl|eauto|]. cbn [s_members set_s_members]. intros m0 Hm.
  apply In_upd_mb in Hm. destruct Hm as [|(m1 & A & B & ->)]; auto. right. cbn. apply find_some in H0. destruct H0 as [H0 _]. destruct (ic_mb _ I _ H0) as [N L].
  destruct H1 as [-> | ->]; split; auto using mode_add_NoDup, mode_del_NoDup, mode_add_len, mode_del_len.
Qed.
Lemma kg_set_modes : forall od od' ch m c, incl od od' -> List.length m < CHANNEL_MODE_LEN -> (NoDup (ch_modes c) -> NoDup m \/ In (O_Modes ch) od') -> chgood od ch c -> chgood od' ch (set_ch_modes m c).
Proof. intros od od' ch m c I L N []. split; cbn; auto. - destruct kg_valid0; auto. - destruct kg_set0; auto. Qed.
#[export] Instance ichan_chadd : PS L_chadd (also wf ichan).
Proof.
  apply also_ps; [exact _|]. intros s s' H W I. inversion H; subst. eapply ichan_set0; eauto. intro G. apply (kg_set_modes (s_odd s)); auto using incl_refl.
  - apply mode_add_len. apply G.
  - left. apply mode_add_NoDup. auto.
Qed.
Lemma if_odd_eq : forall b o s, if_odd b o s = set_s_odd (s_odd (if_odd b o s)) s.
Proof. intros [] o s; cbn; auto. symmetry. apply set_odd_same. Qed.
#[export] Instance ichan_chdel : PS L_chdel (also wf ichan).
Proof.
  apply also_ps; [exact _|]. intros s s' H W I. inversion H; subst. rewrite if_odd_eq. eapply ichan_set; eauto using if_odd_incl. intro G. apply (kg_set_modes (s_odd s)); auto using if_odd_incl.
  - apply mode_del_len. apply G.
  - left. apply mode_del_NoDup. auto.
Qed.
Lemma nodupb_ok : forall l, nodupb l = true -> NoDup l.
Proof.
  induction l as [|x l IH]; cbn; intro H; constructor; apply andb_true_iff in H; destruct H as [A B]; auto. intro I. apply memb_In in I. rewrite I in A. discriminate.
Qed.
#[export] Instance ichan_setmodes : PS L_setmodes (also wf ichan).
Proof.
  apply also_ps; [exact _|]. intros s s' H W I. inversion H; subst. rewrite if_odd_eq. eapply ichan_set; eauto using if_odd_incl. intro G. apply (kg_set_modes (s_odd s)); auto using if_odd_incl.
  - apply strlcpy_len. unfold CHANNEL_MODE_LEN; lia.
  - intros _. destruct (nodupb _) eqn:E; cbn; auto. left. apply nodupb_ok. auto.
Qed.
#[export] Instance ichan_topic : PS L_topic (also wf ichan).
Proof.
  apply also_ps; [exact _|]. intros s s' H W I. inversion H; subst. destruct (H1 c). eapply ichan_set0; eauto.
  intros []. split; try congruence; auto; rewrite ?to_name, ?to_modes; auto.
Qed.
#[export] Instance ichan_key : PS L_key (also wf ichan).
Proof.
  apply also_ps; [exact _|]. intros s s' H W I. inversion H; subst. eapply ichan_set0; eauto.
  intros []. split; auto. cbn. apply strlcpy_len. unfold CLIENT_PASS_LEN; lia.
Qed.
#[export] Instance ichan_limit : PS L_limit (also wf ichan).
Proof.
  apply also_ps; [exact _|]. intros s s' H W I. inversion H; subst. eapply ichan_set0; eauto.
  intros []. split; auto. cbn -[Z.modulo]. apply Z.mod_pos_bound. lia.
Qed.
#[export] Instance ichan_keyfile : PS L_keyfile (also wf ichan).
Proof. apply also_ps; [exact _|]. intros s s' H W I. inversion H; subst. eapply ichan_set0; eauto. intros []. split; auto. Qed.
#[export] Instance ichan_lists : PS L_lists (also wf ichan).
Proof. apply also_ps; [exact _|]. intros s s' H W I. inversion H; subst. eapply ichan_set0; eauto; [destruct H1; reflexivity|]. intros []. destruct H1; split; cbn; auto; destruct kg_once0; split; auto. Qed.
Theorem live_ichan : forall s, live s -> ichan s.
Proof.
  apply (also_inv wf); [exact live_wf| | |].
  - intros c sv t r s CK H. unfold boot in H. assert (R : rel (also wf ichan) Channel_InitPredefined) by rel_auto. apply (R _ _ _ H).
    + apply wf_init.
    + split; cbn; try discriminate. contradiction.
  - intro e. apply step_rel.
  - apply action_rel.
Qed.
Theorem reachable_ichan : forall s, reachable s -> ichan s.
Proof. intros s R. apply live_ichan. constructor. auto. Qed.
