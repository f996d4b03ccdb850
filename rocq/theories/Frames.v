(** What happens to the clients, channels and memberships that existed before: relations between a
    state and a later one, for given relations between the old and the new version of a client,
    channel or membership. *)
From Coq Require Import List Ascii String ZArith NArith Bool Lia Arith.
From Coq Require Import Relations RelationClasses.
From Verif Require Import Bytes Match Lists Hash ParseReq State Messages Monad Core Write Info Chan Mode Msg Login Oper Server Dispatch Conn.
From Verif Require Import Rel RelWrite RelInfo RelBase RelChan RelSrv RelInit RelKey RelCmd RelComp WF RelGone Frame Inv2 Inv4.
Import ListNotations.
Local Open Scope m_scope.

(** ---- clients ---- *)
(** the changes of a client structure, by label *)
Inductive cstep : lab -> client -> client -> Prop :=
| cs_meta : forall c c', cmeta c c' -> cstep L_meta c c'
| cs_attr : forall c c', cattr c c' -> cstep L_attr c c'
| cs_away : forall c c', caway c c' -> cstep L_away c c'
| cs_intro : forall c h, cstep L_intro c (set_cl_introducer (Some h) c)
| cs_id : forall c k id, cstep L_id c (set_id k id c)
| cs_idany : forall c k id, cstep L_idany c (set_id k id c)
| cs_umode_add : forall c m, m <> "o"%char -> cstep L_umode c (set_cl_modes (fst (mode_add (cl_modes c) m)) c)
| cs_umode_del : forall c m, cstep L_umode c (set_cl_modes (fst (mode_del (cl_modes c) m)) c)
| cs_oper : forall c, cstep L_oper c (set_cl_modes (fst (mode_add (cl_modes c) "o")) c)
| cs_type : forall c t tok, cstep L_type c (typed t tok c)
| cs_type0 : forall c t tok, t = T_UNKNOWNSERVER \/ t = T_SERVER -> cstep L_type0 c (typed t tok c).
Class CR (R : client -> client -> Prop) : Prop := mk_CR {
  cr_refl : forall c, R c c; cr_trans : forall a b c, R a b -> R b c -> R a c; cr_cloak : forall x c, R c (set_cl_cloaked x c) }.
Class CS (l : lab) (R : client -> client -> Prop) : Prop := cstep_R : forall c c', cstep l c c' -> R c c'.
#[export] Instance CS_type0 : forall R, CS L_type R -> CS L_type0 R | 10.
Proof. intros R K c c' H. inversion H; subst. apply K. constructor. Qed.
#[export] Instance CS_attr : forall R, CS L_meta R -> CS L_attr R | 10.
Proof. intros R K c c' H. inversion H; subst. apply K. constructor. apply at_meta. auto. Qed.
#[export] Instance CS_away : forall R, CS L_meta R -> CS L_away R | 10.
Proof. intros R K c c' H. inversion H; subst. apply K. constructor. apply aw_meta. auto. Qed.
(** the configuration has not changed, and every client that existed in [s0] is there, related by [R], or gone *)
Definition byH (R : client -> client -> Prop) (s0 s : state) : Prop :=
  s_conf s = s_conf s0 /\ s_next s0 <= s_next s /\
  forall h c', h < s_next s0 -> assoc h (s_heap s) = Some c' -> exists c, assoc h (s_heap s0) = Some c /\ R c c'.
Definition hlab (l : lab) : bool := match l with L_accept | L_newserver => true | _ => compo l end.

Section H.
Context {R : client -> client -> Prop} {CRR : CR R} {s0 : state}.
Let I := byH R s0.
Lemma byH_f : forall s s', fconf s s' -> fheap s s' -> I s -> I s'.
Proof.
  intros s s' Fc F (K & N & B). split; [unfold fconf in Fc; congruence|]. split; [rewrite (fh_next _ _ F); auto|].
  intros h c' L A. pose proof (fh_cli _ _ F h) as O. rewrite A in O. destruct (assoc h (s_heap s)) as [c|] eqn:E; [|destruct O]. destruct O as [x ->].
  destruct (B _ _ L E) as (c0 & H0 & H1). exists c0. split; auto. eapply cr_trans; eauto. apply cr_cloak.
Qed.
Lemma byH_set : forall s s' h f c, s_conf s' = s_conf s -> s_next s' = s_next s -> s_heap s' = aupd h f (s_heap s) -> assoc h (s_heap s) = Some c -> R c (f c) -> I s -> I s'.
Proof.
  intros s s' h f c E1 E2 E3 A Hf (K & N & B). split; [congruence|]. split; [congruence|]. intros j c' L A'. rewrite E3, assoc_aupd in A'. destruct (Nat.eqb_spec h j); [|eauto]. subst j.
  rewrite A in A'. cbn in A'. injection A' as <-. destruct (B _ _ L A) as (c0 & H0 & H1). exists c0. split; auto. eapply cr_trans; eauto.
Qed.
Lemma byH_new : forall s s' h c, s_conf s' = s_conf s -> s_next s <= s_next s' -> h = s_next s -> s_heap s' = (h, c) :: s_heap s -> I s -> I s'.
Proof.
  intros s s' h c E1 E2 -> E3 (K & N & B). split; [congruence|]. split; [lia|]. intros j c' L A'. rewrite E3 in A'. cbn [assoc] in A'.
  destruct (Nat.eqb_spec j (s_next s)); [|eauto]. subst j. lia.
Qed.
Lemma byH_step : forall l, hlab l = false -> (theap l = true -> CS l R) -> forall s s', wf s -> pstep l s s' -> I s -> I s'.
Proof.
  intros l T C s s' W H. assert (CO : compo l = false) by (destruct l; try reflexivity; discriminate T).
  pose proof (conf_step _ _ _ CO W H) as FC. destruct (theap l) eqn:TH; [|apply byH_f; [exact FC|eapply frame_heap; eauto]]. specialize (C eq_refl).
  destruct l; try discriminate T; try discriminate TH; try (inversion H; subst; eapply byH_set; [reflexivity..|eassumption|apply C; econstructor; eauto; fail]).
  - inversion H; subst; (eapply byH_set; [reflexivity..|eassumption|apply C]); [apply cs_umode_add; auto|apply cs_umode_del].
  - apply type_eq in H. destruct H as (h & c & t & tok & a & b & Hc & _ & _ & ->). eapply (byH_set _ _ h (typed t tok) c); [exact FC|unfold if_odd; ifs; reflexivity|unfold if_odd; ifs; reflexivity|exact Hc|apply C; constructor].
  - apply type0_eq in H. destruct H as (h & c & t & tok & a & b & Hc & _ & _ & Ht & ->). eapply (byH_set _ _ h (typed t tok) c); [exact FC|unfold if_odd; ifs; reflexivity|unfold if_odd; ifs; reflexivity|exact Hc|apply C; constructor; exact Ht].
  - apply new_eq in H; auto. destruct H as (c & a & b & _ & ->). eapply (byH_new _ _ _ c); [exact FC|cbn; lia|reflexivity|reflexivity].
  - apply new_eq in H; auto. destruct H as (c & a & b & _ & ->). eapply (byH_new _ _ _ c); [exact FC|cbn; lia|reflexivity|reflexivity].
  - inversion H; subst. intro B. exact B.
  - apply free_eq in H. destruct H as (h & c & _ & _ & ->). intros (K & N & B). split; [rewrite FC; auto|]. split; [unfold if_odd; ifs; exact N|]. intros j c' L A'.
    replace (s_heap (set_s_heap (adel h (s_heap s)) (if_odd (heq h This_Server) O_Self s))) with (adel h (s_heap s)) in A' by (unfold if_odd; ifs; reflexivity). rewrite assoc_adel in A'. destruct (Nat.eqb j h); [discriminate|eauto].
Qed.
Lemma byH_refl : I s0.
Proof. split; auto. split; auto. intros h c' _ A. exists c'. split; auto. apply cr_refl. Qed.
End H.
#[export] Instance byH_wrsub : forall R (CRR : CR R) s0, WrSub (also wf (byH R s0)).
Proof. intros R CRR s0. apply also_wr; [exact _|]. intros s s' H _ B. eapply byH_f; [| |exact B]; [apply fconf_wr, rt_step; auto|apply fheap_wr, rt_step; auto]. Qed.
(** labels that create or destroy clients, but change none *)
#[export] Instance CS_new : forall R, CS L_new R. Proof. intros R c c' H. inversion H. Qed.
#[export] Instance CS_service : forall R, CS L_service R. Proof. intros R c c' H. inversion H. Qed.
#[export] Instance CS_unlink : forall R, CS L_unlink R. Proof. intros R c c' H. inversion H. Qed.
#[export] Instance CS_free : forall R, CS L_free R. Proof. intros R c c' H. inversion H. Qed.
Lemma byH_ps1 : forall R (CRR : CR R) s0 l, hlab l = false -> theap l = false -> PS l (pres wf) -> PS l (also wf (byH R s0)).
Proof. intros R CRR s0 l T1 T2 P s s' H W. split; [exact (P s s' H W)|]. intro E. eapply byH_step; eauto. congruence. Qed.
Lemma byH_ps2 : forall R (CRR : CR R) s0 l, hlab l = false -> CS l R -> PS l (pres wf) -> PS l (also wf (byH R s0)).
Proof. intros R CRR s0 l T1 T2 P s s' H W. split; [exact (P s s' H W)|]. intro E. eapply byH_step; eauto. Qed.
#[export] Hint Extern 1 (PS _ (also wf (byH _ _))) => (apply byH_ps1; [exact _|reflexivity|reflexivity|exact _]) : typeclass_instances.
#[export] Hint Extern 2 (PS _ (also wf (byH _ _))) => (apply byH_ps2; [exact _|reflexivity|exact _|exact _]) : typeclass_instances.

#[export] Instance byH_accept : forall R (CRR : CR R) s0, PS L_accept (also wf (byH R s0)).
Proof.
  intros R CRR s0 s s' H W. split; [exact (ps (l := L_accept) (X := pres wf) _ _ H W)|]. intro B0. inversion H; subst. destruct (wf_fresh _ W) as [F1 F2].
  match goal with J : New_Connection _ _ _ _ = _ |- _ => apply New_Connection_ok in J; auto; destruct J as [(msg & -> & _)|(c & a & b & m & x & _ & _ & _ & _ & K)] end; [exact B0|].
  match type of K with wr ?y _ => assert (B1 : byH R s0 y) by (eapply (byH_new s); [reflexivity|cbn; lia|reflexivity|reflexivity|exact B0]) end.
  eapply byH_f; [apply fconf_wr; exact K|apply fheap_wr; exact K|exact B1].
Qed.
#[export] Instance byH_newserver : forall R (CRR : CR R) s0, PS L_newserver (also wf (byH R s0)).
Proof.
  intros R CRR s0 s s' H W. split; [exact (ps (l := L_newserver) (X := pres wf) _ _ H W)|]. intro B0. inversion H; subst. destruct (wf_fresh _ W) as [F1 F2].
  match goal with K : New_Server _ _ _ _ = _ |- _ => apply New_Server_ok in K; auto; destruct K as [-> |(sv & c & a & b & m & _ & _ & _ & ->)] end; [exact B0|].
  eapply (byH_new s); [reflexivity|cbn; lia|reflexivity|reflexivity|exact B0].
Qed.

(** ---- channels ---- *)
Inductive kstep : lab -> channel -> channel -> Prop :=
| ks_chadd : forall c m, kstep L_chadd c (set_ch_modes (fst (mode_add (ch_modes c) m)) c)
| ks_chdel : forall c m, kstep L_chdel c (set_ch_modes (fst (mode_del (ch_modes c) m)) c)
| ks_setmodes : forall c m, kstep L_setmodes c (set_ch_modes m c)
| ks_topic : forall c c', ctopic c c' -> kstep L_topic c c'
| ks_key : forall c k, kstep L_key c (set_ch_key k c)
| ks_limit : forall c n, kstep L_limit c (set_ch_maxusers n c)
| ks_keyfile : forall c n, kstep L_keyfile c (set_ch_keyfile n c)
| ks_lists : forall c c', lop_chan c c' -> kstep L_lists c c'
| ks_check : forall c c', chk_chan c c' -> kstep L_check c c'
| ks_useinv : forall c c', use_chan c c' -> kstep L_useinv c c'
| ks_addinv : forall c c', inv_chan c c' -> kstep L_addinv c c'.
Class KR (R : channel -> channel -> Prop) : Prop := mk_KR { kr_refl : forall c, R c c; kr_trans : forall a b c, R a b -> R b c -> R a c }.
Class KS (l : lab) (R : channel -> channel -> Prop) : Prop := kstep_R : forall c c', kstep l c c' -> R c c'.
#[export] Instance KS_check : forall R, KS L_lists R -> KS L_check R | 10.
Proof. intros R H c c' K. inversion K; subst. apply H. constructor. apply chk_lop. auto. Qed.
#[export] Instance KS_useinv : forall R, KS L_lists R -> KS L_useinv R | 10.
Proof. intros R H c c' K. inversion K; subst. apply H. constructor. apply use_lop. auto. Qed.
#[export] Instance KS_addinv : forall R, KS L_lists R -> KS L_addinv R | 10.
Proof. intros R H c c' K. inversion K; subst. apply H. constructor. apply inv_lop. auto. Qed.
(** every channel that existed in [s0] is there, related by [R], or gone *)
Definition byC (R : channel -> channel -> Prop) (s0 s : state) : Prop :=
  s_chnext s0 <= s_chnext s /\
  forall ch c', ch < s_chnext s0 -> assoc ch (s_chans s) = Some c' -> exists c, assoc ch (s_chans s0) = Some c /\ R c c'.
Section C.
Context {R : channel -> channel -> Prop} {KRR : KR R} {s0 : state}.
Let I := byC R s0.
Lemma byC_f : forall s s', fchan s s' -> I s -> I s'.
Proof. intros s s' [F1 F2] (N & B). split; [rewrite F2; auto|]. intros ch c' L A. rewrite F1 in A. eauto. Qed.
Lemma byC_set : forall s s' h f c, s_chnext s' = s_chnext s -> s_chans s' = aupd h f (s_chans s) -> assoc h (s_chans s) = Some c -> R c (f c) -> I s -> I s'.
Proof.
  intros s s' h f c E2 E3 A Hf (N & B). split; [congruence|]. intros j c' L A'. rewrite E3, assoc_aupd in A'. destruct (Nat.eqb_spec h j); [|eauto]. subst j.
  rewrite A in A'. cbn in A'. injection A' as <-. destruct (B _ _ L A) as (c0 & H0 & H1). exists c0. split; auto. eapply kr_trans; eauto.
Qed.
Lemma byC_new : forall s s' h c, s_chnext s <= s_chnext s' -> h = s_chnext s -> s_chans s' = (h, c) :: s_chans s -> I s -> I s'.
Proof.
  intros s s' h c E2 -> E3 (N & B). split; [lia|]. intros j c' L A'. rewrite E3 in A'. cbn [assoc] in A'.
  destruct (Nat.eqb_spec j (s_chnext s)); [|eauto]. subst j. lia.
Qed.
Lemma byC_step : forall l, compo l = false -> (tchan l = true -> KS l R) -> forall s s', wf s -> pstep l s s' -> I s -> I s'.
Proof.
  intros l T C s s' W H. destruct (tchan l) eqn:TH; [|apply byC_f; eapply frame_chan; eauto; intros ->; discriminate T]. specialize (C eq_refl).
  destruct l; try discriminate T; try discriminate TH; try (inversion H; subst; eapply byC_set; [unfold set_chan, if_odd; ifs; reflexivity|unfold set_chan, if_odd; ifs; reflexivity|eassumption|apply C; econstructor; eauto; fail]).
  - apply create_eq in H. destruct H as (n & h & c & _ & _ & _ & ->). eapply byC_new; [|reflexivity|unfold if_odd; ifs; reflexivity]. unfold if_odd; ifs; cbn; lia.
  - apply create_any_eq in H. destruct H as (n & _ & ->). eapply byC_new; [|reflexivity|unfold if_odd; ifs; reflexivity]. unfold if_odd; ifs; cbn; lia.
  - apply create_pre_eq in H; auto. destruct H as (n & m & _ & _ & _ & ->). eapply byC_new; [|reflexivity|reflexivity]. cbn; lia.
  - inversion H; subst. intros (N & B). split; auto. intros j c' L A'. cbn [s_chans set_s_chans] in A'. rewrite assoc_adel in A'. destruct (Nat.eqb j ch); [discriminate|eauto].
Qed.
Lemma byC_refl : I s0.
Proof. split; auto. intros h c' _ A. exists c'. split; auto. apply kr_refl. Qed.
End C.
#[export] Instance byC_wrsub : forall R (KRR : KR R) s0, WrSub (also wf (byC R s0)).
Proof. intros R KRR s0. apply also_wr; [exact _|]. intros s s' H _ B. eapply byC_f; [|exact B]. apply fchan_wr, rt_step; auto. Qed.
#[export] Instance KS_create : forall R, KS L_create R. Proof. intros R c c' H. inversion H. Qed.
#[export] Instance KS_create_any : forall R, KS L_create_any R. Proof. intros R c c' H. inversion H. Qed.
#[export] Instance KS_create_pre : forall R, KS L_create_pre R. Proof. intros R c c' H. inversion H. Qed.
#[export] Instance KS_delchan : forall R, KS L_delchan R. Proof. intros R c c' H. inversion H. Qed.
Lemma byC_ps1 : forall R (KRR : KR R) s0 l, compo l = false -> tchan l = false -> PS l (pres wf) -> PS l (also wf (byC R s0)).
Proof. intros R KRR s0 l T1 T2 P s s' H W. split; [exact (P s s' H W)|]. intro E. eapply byC_step; eauto. congruence. Qed.
Lemma byC_ps2 : forall R (KRR : KR R) s0 l, compo l = false -> KS l R -> PS l (pres wf) -> PS l (also wf (byC R s0)).
Proof. intros R KRR s0 l T1 T2 P s s' H W. split; [exact (P s s' H W)|]. intro E. eapply byC_step; eauto. Qed.
#[export] Hint Extern 1 (PS _ (also wf (byC _ _))) => (apply byC_ps1; [exact _|reflexivity|reflexivity|exact _]) : typeclass_instances.
#[export] Hint Extern 2 (PS _ (also wf (byC _ _))) => (apply byC_ps2; [exact _|reflexivity|exact _|exact _]) : typeclass_instances.

(** ---- memberships ---- *)
(** every membership of [s] is one of [s0], with modes related by [R], or one of the new ones that [A] allows *)
Definition byM (A : chandle -> handle -> Prop) (R : bytes -> bytes -> Prop) (s0 s : state) : Prop :=
  forall m, In m (s_members s) -> A (mb_chan m) (mb_client m) \/
    exists m0, In m0 (s_members s0) /\ mb_chan m0 = mb_chan m /\ mb_client m0 = mb_client m /\ R (mb_modes m0) (mb_modes m).
Class MR (R : bytes -> bytes -> Prop) : Prop := mk_MR { mr_refl : forall c, R c c; mr_trans : forall a b c, R a b -> R b c -> R a c }.
Class MS (R : bytes -> bytes -> Prop) : Prop := mk_MS { ms_add : forall l m, R l (fst (mode_add l m)); ms_del : forall l m, R l (fst (mode_del l m)) }.
Class MA (A : chandle -> handle -> Prop) : Prop := mk_MA : forall ch h, A ch h.
Section M.
Context {A : chandle -> handle -> Prop} {R : bytes -> bytes -> Prop} {MRR : MR R} {s0 : state}.
Let I := byM A R s0.
Lemma byM_same : forall s s', s_members s' = s_members s -> I s -> I s'.
Proof. intros s s' E B m H. rewrite E in H. auto. Qed.
Lemma byM_sub : forall s s', (forall m, In m (s_members s') -> In m (s_members s)) -> I s -> I s'.
Proof. intros s s' E B m H. auto. Qed.
Lemma upd_mb_In : forall ch h f l mb x, find (is_mb ch h) l = Some mb -> In x (upd_mb ch h f l) -> In x l \/ x = f mb.
Proof.
  induction l as [|y l IH]; cbn [find upd_mb]; intros mb x F X; [discriminate|]. destruct (is_mb ch h y).
  - injection F as ->. destruct X as [<-|X]; auto. left. right. auto.
  - destruct X as [<-|X]; [left; left; auto|]. destruct (IH _ _ F X); auto. left. right. auto.
Qed.
Lemma byM_mbmode {MSR : MS R} : PS L_mbmode (also wf I).
Proof.
  apply also_ps; [exact _|]. intros s s' H _ B. inversion H; subst. intros x X. cbn [s_members set_s_members] in X. apply (upd_mb_In _ _ _ _ _ _ H0) in X.
  destruct X as [X| ->]; auto. pose proof (find_some _ _ H0) as [F1 _]. cbn. destruct (B _ F1) as [K|(m0 & M0 & M1 & M2 & M3)]; [left; exact K|].
  right. exists m0. repeat split; auto. eapply mr_trans; eauto. destruct H1 as [-> | ->]; [apply ms_add|apply ms_del].
Qed.
Lemma byM_addmb {MAA : MA A} : PS L_addmb (also wf I).
Proof.
  apply also_ps; [exact _|]. intros s s' H _ B. inversion H; subst. apply addmb_eq in H1. destruct H1 as (c & cc & _ & _ & ->). intros m [<-|M]; [left; apply MAA|].
  apply B. revert M. unfold if_odd; ifs; auto.
Qed.
Lemma byM_create {MAA : MA A} : PS L_create (also wf I).
Proof.
  apply also_ps; [exact _|]. intros s s' H _ B. apply create_eq in H. destruct H as (n & h & c & _ & _ & _ & ->). intros m [<-|M]; [left; apply MAA|].
  apply B. revert M. unfold if_odd; ifs; auto.
Qed.
Lemma del_mb_In : forall ch h l x, In x (del_mb ch h l) -> In x l.
Proof. induction l as [|y l IH]; cbn [del_mb]; intros x X; auto. destruct (is_mb ch h y); [right; auto|]. destruct X as [<-|X]; [left|right]; auto. Qed.
Lemma byM_delmb : PS L_delmb (also wf I).
Proof. apply also_ps; [exact _|]. intros s s' H _. inversion H; subst. apply byM_sub. intros m M. cbn in M. eapply del_mb_In; eauto. Qed.
Lemma byM_refl : I s0.
Proof. intros m M. right. exists m. repeat split; auto. apply mr_refl. Qed.
End M.
#[export] Instance byM_wrsub : forall A R s0, WrSub (also wf (byM A R s0)).
Proof. intros A R s0. apply also_wr; [exact _|]. intros s s' H _ B. eapply byM_same; [|exact B]. apply fmb_wr, rt_step; auto. Qed.
Lemma byM_ps1 : forall A R s0 l, compo l = false -> tmb l = false -> PS l (pres wf) -> PS l (also wf (byM A R s0)).
Proof. intros A R s0 l T1 T2 P s s' H W. split; [exact (P s s' H W)|]. intro E. eapply byM_same; [|exact E]. eapply frame_mb; eauto. intros ->. discriminate T1. Qed.
#[export] Hint Extern 1 (PS _ (also wf (byM _ _ _))) => (apply byM_ps1; [reflexivity|reflexivity|exact _]) : typeclass_instances.
#[export] Existing Instance byM_mbmode.
#[export] Existing Instance byM_addmb.
#[export] Existing Instance byM_create.
#[export] Existing Instance byM_delmb.

(** ---- all commands but some ---- *)
(** [others X ns]: the effect of every command whose name is not in [ns] is within [X] *)
Definition others (X : state -> state -> Prop) (ns : list string) : Prop :=
  Forall (fun c => existsb (String.eqb (cm_name c)) ns = true \/ forall h req, relp (cmd_pre h req) X (cm_fun c h req)) My_Commands.
Ltac others_tac :=
  let W := fresh "W" in let W' := fresh "W'" in
  assert (W : forall h req, forall s, cmd_pre h req s -> attached h s) by (let A := fresh in let B := fresh in intros h req s [A B]; exact A);
  assert (W' : forall h req, forall s, cmd_pre h req s -> prefix_ok h req s) by (let A := fresh in let B := fresh in intros h req s [A B]; exact B);
  unfold others, My_Commands; repeat match goal with
  | |- Forall _ [] => constructor
  | |- Forall _ (mkCommand _ ?f _ _ _ _ :: _) => constructor; [first [left; reflexivity | right; intros h req; cbn [cm_fun]]|]
  | |- relp _ _ (IRC_NICK ?h ?req) => exact (relp_weaken _ _ _ _ _ (W h req) (IRC_NICK_relp h req))
  | |- relp _ _ (IRC_SERVICE ?h ?req) => exact (relp_weaken _ _ _ _ _ (W h req) (IRC_SERVICE_relp h req))
  | |- relp _ _ (IRC_SERVER ?h ?req) => exact (relp_weaken _ _ _ _ _ (W h req) (IRC_SERVER_relp h req))
  | |- relp _ _ (IRC_QUIT ?h ?req) => exact (relp_weaken _ _ _ _ _ (W' h req) (IRC_QUIT_relp h req))
  | |- relp _ _ (IRC_QUIT_HTTP _ _) => apply IRC_QUIT_HTTP_relp
  | |- relp _ _ (IRC_PASS _ _) => apply rel_relp; apply IRC_PASS_rel
  | |- relp _ _ (IRC_SVSNICK _ _) => apply rel_relp; apply IRC_SVSNICK_rel
  | |- relp _ _ (IRC_USER _ _) => apply rel_relp; apply IRC_USER_rel
  | |- relp _ _ (IRC_PONG _ _) => apply rel_relp; apply IRC_PONG_rel
  | |- relp _ _ (IRC_CAP _ _) => apply rel_relp; apply IRC_CAP_rel
  | |- relp _ _ _ => apply rel_relp; rel_auto
  end.
Lemma others_use : forall X ns cmd h req s b s', others X ns -> In cmd My_Commands -> existsb (String.eqb (cm_name cmd)) ns = false -> cmd_pre h req s -> cm_fun cmd h req s = Ok b s' -> X s s'.
Proof.
  intros X ns cmd h req s b s' O I N P H. unfold others in O. rewrite Forall_forall in O. destruct (O _ I) as [E|E]; [congruence|]. eapply E; eauto.
Qed.
