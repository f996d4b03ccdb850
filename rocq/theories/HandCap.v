(** The capability negotiation (C43). *)
From Coq Require Import List Ascii String ZArith NArith Bool Lia Arith.
From Coq Require Import Relations RelationClasses.
From Verif Require Import Bytes Strl Match Lists ListsProofs Hash ParseReq State Messages Monad Core Write Info Chan Mode Msg Login Oper Server Dispatch Conn.
From Verif Require Import Rel RelWrite RelInfo RelBase RelChan RelSrv RelInit RelKey RelCmd RelComp WF RelGone Frame Tree Inv2 Inv4 Live Spec Observ Unch HandOper HandPrefix HandLine Frames Attrib HandGain HandUser HandChan HandJoin HandLogin Output HandDo.
Import ListNotations.
Local Open Scope m_scope.

Definition ckeep (c c' : client) : Prop := cl_cap_pending c' = cl_cap_pending c /\ cl_cap_multi c' = cl_cap_multi c.
#[export] Instance ckeep_CR : CR ckeep. Proof. split; [split; reflexivity| |split; reflexivity]. intros a b c [] []. split; congruence. Qed.
#[export] Instance ck_attr : CS L_attr ckeep. Proof. intros c c' H. inversion H; subst. match goal with K : cattr _ _ |- _ => destruct K end. split; auto. Qed.
#[export] Instance ck_away : CS L_away ckeep. Proof. intros c c' H. inversion H; subst. match goal with K : caway _ _ |- _ => destruct K end. split; auto. Qed.
#[export] Instance ck_intro : CS L_intro ckeep. Proof. intros c c' H. inversion H; subst. split; reflexivity. Qed.
#[export] Instance ck_id : CS L_id ckeep. Proof. intros c c' H. inversion H; subst. unfold set_id. destruct k; split; reflexivity. Qed.
#[export] Instance ck_idany : CS L_idany ckeep. Proof. intros c c' H. inversion H; subst. unfold set_id. destruct k; split; reflexivity. Qed.
#[export] Instance ck_umode : CS L_umode ckeep. Proof. intros c c' H. inversion H; subst; split; reflexivity. Qed.
#[export] Instance ck_oper : CS L_oper ckeep. Proof. intros c c' H. inversion H; subst; split; reflexivity. Qed.
#[export] Instance ck_type : CS L_type ckeep. Proof. intros c c' H. inversion H; subst; unfold typed; destruct (ctype_eqb t T_SERVER); split; reflexivity. Qed.
Lemma others_ckeep : forall s0, others (also wf (byH ckeep s0)) ["CAP"]%string.
Proof. intro s0. others_tac. Qed.

Lemma parse_cap_spec : forall l old, (Forall known_cap l -> exists m, parse_cap l old = Some m /\ wanted old l m) /\ (~ Forall known_cap l -> parse_cap l old = None).
Proof.
  assert (G : forall l old m, parse_cap l old = Some m -> l <> [] -> forall o, wanted o l m).
  { induction l as [|w l IH]; intros old m H N o; [congruence|]. cbn [parse_cap] in H. destruct l as [|w2 l].
    - destruct (beq w (B "-multi-prefix")) eqn:E1 in H.
      + injection H as <-. apply beq_eq in E1. subst w. exact (WT_off o []).
      + destruct (beq w (B "multi-prefix")) eqn:E2 in H; [|discriminate]. injection H as <-. apply beq_eq in E2. subst w. exact (WT_on o []).
    - assert (K : wanted o (w2 :: l) m).
      { destruct (beq w (B "-multi-prefix")) in H; [eapply IH; eauto; discriminate|]. destruct (beq w (B "multi-prefix")) in H; [eapply IH; eauto; discriminate|discriminate]. }
      remember (w2 :: l) as l2 eqn:El. destruct K as [|l0|l0]; [discriminate|exact (WT_on o (w :: l0))|exact (WT_off o (w :: l0))]. }
  assert (S : forall l old, Forall known_cap l -> exists m, parse_cap l old = Some m).
  { induction l as [|w l IH]; intros old F; [exists old; reflexivity|]. inversion F as [|x y E F2]. subst x y. cbn [parse_cap]. destruct (beq w (B "-multi-prefix")) eqn:E1; [apply IH; exact F2|].
    destruct (beq w (B "multi-prefix")) eqn:E2; [apply IH; exact F2|]. destruct E as [-> | ->]; discriminate. }
  assert (S2 : forall l old m, parse_cap l old = Some m -> Forall known_cap l).
  { induction l as [|w l IH]; intros old m H; [constructor|]. cbn [parse_cap] in H. destruct (beq w _) eqn:E1 in H; [constructor; [right; apply beq_eq; auto|eauto]|]. destruct (beq w _) eqn:E2 in H; [constructor; [left; apply beq_eq; auto|eauto]|discriminate]. }
  intros l old. split.
  - intro F. destruct (S l old F) as [m E]. exists m. split; auto. destruct l; [cbn in E; injection E as <-; constructor|]. eapply G; eauto. discriminate.
  - intro F. destruct (parse_cap l old) eqn:E; auto. exfalso. apply F. eapply S2; eauto.
Qed.

(** ---- what CAP does ---- *)
Definition cap_result (args : list bytes) (h : handle) (s s' : state) : Prop :=
  forall j d', j < s_next s -> assoc j (s_heap s') = Some d' -> exists d, assoc j (s_heap s) = Some d /\ (j <> h -> ckeep d d') /\ (j = h -> cap_effect args d d').
Lemma cap_keep : forall args h s s', (forall d d', assoc h (s_heap s) = Some d -> ckeep d d' -> cap_effect args d d') -> also wf (byH ckeep s) s s' -> wf s -> cap_result args h s s'.
Proof.
  intros args h s s' K F W j d' J A. destruct (F W) as [_ F1]. destruct (F1 byH_refl) as (_ & _ & F2). destruct (F2 j d' J A) as (d & D1 & D2). exists d. split; auto. split; auto. intros ->. eauto.
Qed.
Lemma cap_set : forall args h f s s' c, wf s -> assoc h (s_heap s) = Some c -> (forall d', ckeep (f c) d' -> cap_effect args c d') ->
  also wf (byH ckeep (set_cli h f s)) (set_cli h f s) s' -> wf (set_cli h f s) -> cap_result args h s s'.
Proof.
  intros args h f s s' c W A K F W1 j d' J AJ. destruct (F W1) as [_ F1]. destruct (F1 byH_refl) as (_ & _ & F2). destruct (F2 j d' J AJ) as (d & D1 & D2).
  unfold set_cli in D1. cbn [s_heap set_s_heap] in D1. rewrite assoc_aupd in D1. destruct (Nat.eqb_spec h j) as [-> |N].
  - rewrite A in D1. cbn in D1. injection D1 as <-. exists c. split; auto. split; [congruence|]. auto.
  - exists d. split; auto. split; auto. congruence.
Qed.
Lemma wf_cli : forall h f c s, wf s -> assoc h (s_heap s) = Some c -> (forall x, cmeta x (f x)) -> wf (set_cli h f s).
Proof. intros h f c s W A K. assert (P : pres wf s (set_cli h f s)) by (apply (ps (l := L_meta)); eapply p_meta; eauto). exact (P W). Qed.
Lemma cap_meta2 : forall x y c, cmeta c (set_cl_cap_multi x (set_cl_cap_pending y c)). Proof. intros. destruct (me_cap_pending y c), (me_cap_multi x (set_cl_cap_pending y c)). split; congruence || auto. Qed.
Ltac cap_meta := first [apply me_cap_pending | apply me_cap_multi | apply cap_meta2].
Lemma same_iff : forall a b, caseeq a (B b) = true <-> same_name a (B b).
Proof. intros. symmetry. apply same_name_iff. Qed.
Lemma firstn_strlcpy : forall a, strlcpy COMMAND_LEN a = firstn 512 a.
Proof. intro a. unfold strlcpy. destruct (Nat.leb_spec COMMAND_LEN (List.length a)) as [L|L]; [reflexivity|]. rewrite firstn_all2; auto. unfold COMMAND_LEN in L. lia. Qed.
Lemma CAP_result : forall h req s b s' c, wf s -> assoc h (s_heap s) = Some c -> 1 <= argc req <= 2 -> IRC_CAP h req s = Ok b s' -> cap_result (rq_args req) h s s'.
Proof.
  intros h req s b s' c W A N H.
  assert (WR : forall x y, rel (also wf (byH ckeep x)) (IRC_WriteStrClient h y [aID h])) by (intros; rel_auto).
  unfold IRC_CAP in H. cbv zeta in H. unfold argc in *. unfold arg in H.
  destruct (rq_args req) as [|w [|a [|? ?]]] eqn:RA; cbn [List.length] in N; try lia; cbn [List.length nth Nat.eqb Nat.leb andb] in H.
  - (* one word *)
    destruct (caseeq w (B "CLEAR")) eqn:E1; [|destruct (caseeq w (B "END")) eqn:E2; [|destruct (caseeq w (B "LS")) eqn:E3]].
    + unfold Handle_CAP_CLEAR in H. bd H as c1 s1 H1. apply cli_ok in H1. destruct H1 as [H1 ->]. rewrite A in H1. injection H1 as <-. bd H as u s1 H1. apply upd_cli_ok in H1. destruct H1 as (c1 & A1 & ->). rewrite A in A1. injection A1 as <-.
      eapply cap_set; [exact W|exact A| |xlast H|eapply wf_cli; eauto; intro; cap_meta]. intros d' [K1 K2]. eapply CE_clear; [reflexivity|apply same_iff; exact E1|exact K1|exact K2].
    + unfold Handle_CAP_END in H. bd H as t s1 H1. apply Client_Type_ok in H1. destruct H1 as (-> & c1 & A1 & ->). rewrite A in A1. injection A1 as <-. destruct (ctype_eqb (cl_type c) T_USER) eqn:TU.
      * apply ret_ok in H. destruct H as [_ ->]. apply ctype_eqb_eq in TU. apply cap_keep; [|reflexivity|exact W]. intros d d' AD [K1 K2]. eapply CE_end; [reflexivity|apply same_iff; exact E2|exact K2|auto|]. rewrite A in AD. injection AD as <-. congruence.
      * assert (TN : cl_type c <> T_USER) by (intro Q; rewrite Q in TU; discriminate TU). bd H as u s1 H1. apply upd_cli_ok in H1. destruct H1 as (c1 & A1 & ->). rewrite A in A1. injection A1 as <-.
        eapply cap_set; [exact W|exact A| | |eapply wf_cli; eauto; intro; cap_meta].
        -- intros d' [K1 K2]. eapply CE_end; [reflexivity|apply same_iff; exact E2|exact K2|congruence|intros _; exact K1].
        -- destruct (ctype_eqb (cl_type c) T_WAITCAPEND) eqn:TW; [|apply ret_ok in H; destruct H as [_ ->]; reflexivity]. apply ctype_eqb_eq in TW.
           eapply Login_User_relp; [|exact H]. exists (set_cl_cap_pending false c). split. { unfold set_cli. cbn [s_heap set_s_heap]. rewrite assoc_aupd, Nat.eqb_refl, A. reflexivity. } left. cbn [cl_type set_cl_cap_pending]. rewrite TW. split; [reflexivity|discriminate].
    + unfold Handle_CAP_LS, Set_CAP_Negotiation in H. bd H as u s1 H1. bd H1 as t s2 H2. apply is_type_ok in H2. destruct H2 as (-> & c1 & A1 & ->). rewrite A in A1. injection A1 as <-. destruct (ctype_eqb (cl_type c) T_USER) eqn:TU; cbn [negb whenM] in H1.
      * apply ret_ok in H1. destruct H1 as [_ ->]. apply ctype_eqb_eq in TU. apply cap_keep; [|xlast H|exact W]. intros d d' AD [K1 K2]. eapply CE_ls; [reflexivity|apply same_iff; exact E3|exact K2|auto|]. rewrite A in AD. injection AD as <-. congruence.
      * assert (TN : cl_type c <> T_USER) by (intro Q; rewrite Q in TU; discriminate TU). apply upd_cli_ok in H1. destruct H1 as (c1 & A1 & ->). rewrite A in A1. injection A1 as <-.
        eapply cap_set; [exact W|exact A| |xlast H|eapply wf_cli; eauto; intro; cap_meta]. intros d' [K1 K2]. eapply CE_ls; [reflexivity|apply same_iff; exact E3|exact K2|congruence|intros _; exact K1].
    + apply cap_keep; [|destruct (caseeq w (B "LIST")) in H; xlast H|exact W]. intros d d' AD [K1 K2]. apply CE_other; auto. intros x r E. injection E as <- <-.
      rewrite <- !same_iff, E1, E2, E3. repeat split; try discriminate.
  - destruct (caseeq w (B "LS")) eqn:E3; [|destruct (caseeq w (B "LIST")) eqn:E4; [|destruct (caseeq w (B "REQ")) eqn:E5]].
    + unfold Handle_CAP_LS, Set_CAP_Negotiation in H. bd H as u s1 H1. bd H1 as t s2 H2. apply is_type_ok in H2. destruct H2 as (-> & c1 & A1 & ->). rewrite A in A1. injection A1 as <-. destruct (ctype_eqb (cl_type c) T_USER) eqn:TU; cbn [negb whenM] in H1.
      * apply ret_ok in H1. destruct H1 as [_ ->]. apply ctype_eqb_eq in TU. apply cap_keep; [|xlast H|exact W]. intros d d' AD [K1 K2]. eapply CE_ls; [reflexivity|apply same_iff; exact E3|exact K2|auto|]. rewrite A in AD. injection AD as <-. congruence.
      * assert (TN : cl_type c <> T_USER) by (intro Q; rewrite Q in TU; discriminate TU). apply upd_cli_ok in H1. destruct H1 as (c1 & A1 & ->). rewrite A in A1. injection A1 as <-.
        eapply cap_set; [exact W|exact A| |xlast H|eapply wf_cli; eauto; intro; cap_meta]. intros d' [K1 K2]. eapply CE_ls; [reflexivity|apply same_iff; exact E3|exact K2|congruence|intros _; exact K1].
    + apply cap_keep; [|xlast H|exact W]. intros d d' AD [K1 K2]. apply CE_other; auto. intros x r E. injection E as <- <-. rewrite <- !same_iff, E3. do 2 (split; [discriminate|]). split; [discriminate|]. intro Q. exfalso.
      apply caseeq_iff in E4. apply caseeq_iff in Q. rewrite Q in E4. discriminate E4.
    + unfold Handle_CAP_REQ, Set_CAP_Negotiation in H. bd H as u s1 H1. bd H1 as t s2 H2. apply is_type_ok in H2. destruct H2 as (-> & c1 & A1 & ->). rewrite A in A1. injection A1 as <-. rewrite firstn_strlcpy in H. fold (words (firstn 512 a)) in H.
      assert (EFF : forall m d', (cl_type c = T_USER -> cl_cap_pending d' = cl_cap_pending c) -> (cl_type c <> T_USER -> cl_cap_pending d' = true) -> cl_cap_multi d' = m ->
        (parse_cap (words (firstn 512 a)) (cl_cap_multi c) = Some m \/ (parse_cap (words (firstn 512 a)) (cl_cap_multi c) = None /\ m = cl_cap_multi c)) -> cap_effect [w; a] c d').
      { intros m d' K1 K2 K3 K4. destruct (parse_cap_spec (words (firstn 512 a)) (cl_cap_multi c)) as [P1 P2]. eapply CE_req; [reflexivity|apply same_iff; exact E5|exact K1|exact K2| |].
        - intro F. destruct (P1 F) as (m2 & P3 & P4). destruct K4 as [K4|[K4 _]]; rewrite P3 in K4; [|discriminate]. injection K4 as ->. rewrite K3. exact P4.
        - intro F. destruct K4 as [K4|[_ K4]]; [rewrite (P2 F) in K4; discriminate|congruence]. }
      destruct (ctype_eqb (cl_type c) T_USER) eqn:TU; cbn [negb whenM] in H1.
      * apply ret_ok in H1. destruct H1 as [_ ->]. apply ctype_eqb_eq in TU. bd H as c1 s1 H1. apply cli_ok in H1. destruct H1 as [H1 ->]. rewrite A in H1. injection H1 as <-. destruct (parse_cap _ _) as [m|] eqn:PC in H.
        -- bd H as u2 s1 H1. apply upd_cli_ok in H1. destruct H1 as (c1 & A1 & ->). rewrite A in A1. injection A1 as <-. eapply cap_set; [exact W|exact A| |xlast H|eapply wf_cli; eauto; intro; cap_meta].
           intros d' [K1 K2]. eapply (EFF m); auto; congruence.
        -- apply cap_keep; [|xlast H|exact W]. intros d d' AD [K1 K2]. rewrite A in AD. injection AD as <-. eapply EFF; eauto; congruence.
      * assert (TN : cl_type c <> T_USER) by (intro Q; rewrite Q in TU; discriminate TU). apply upd_cli_ok in H1. destruct H1 as (c1 & A1 & ->). rewrite A in A1. injection A1 as <-. bd H as c1 s1 H1. apply cli_ok in H1. destruct H1 as [H1 ->].
        unfold set_cli in H1. cbn [s_heap set_s_heap] in H1. rewrite assoc_aupd, Nat.eqb_refl, A in H1. cbn in H1. injection H1 as <-. cbn [cl_cap_multi set_cl_cap_pending] in H. destruct (parse_cap _ _) as [m|] eqn:PC in H.
        -- bd H as u2 s1 H1. apply upd_cli_ok in H1. destruct H1 as (c1 & A1 & ->). eapply (cap_set _ h (fun x => set_cl_cap_multi m (set_cl_cap_pending true x))); [exact W|exact A| | |].
           ++ intros d' [K1 K2]. eapply (EFF m); auto; congruence.
           ++ match type of H with IRC_WriteStrClient _ _ _ ?x = _ => change x with (set_cli h (set_cl_cap_multi m) (set_cli h (set_cl_cap_pending true) s)) in H end. rewrite set_cli_cli in H. xlast H.
           ++ eapply wf_cli; eauto; intro; cap_meta.
        -- eapply cap_set; [exact W|exact A| |xlast H|eapply wf_cli; eauto; intro; cap_meta]. intros d' [K1 K2]. eapply EFF; eauto; congruence.
    + apply cap_keep; [|destruct (caseeq w (B "ACK")) in H; [apply ret_ok in H; destruct H as [_ ->]; reflexivity|xlast H]|exact W]. intros d d' AD [K1 K2]. apply CE_other; auto. intros x r E. injection E as <- <-.
      rewrite <- !same_iff, E3, E5. repeat split; try discriminate.
Qed.

(** ---- a line ---- *)
Lemma effect_cloak : forall args x c c', cap_effect args (set_cl_cloaked x c) c' -> cap_effect args c c'.
Proof. intros args x c c' H. inversion H; [eapply CE_clear|eapply CE_end|eapply CE_ls|eapply CE_req|eapply CE_other]; eauto. Qed.
Theorem cap_line : forall s i h c text b s', live s -> client_of s i h c -> Parse_Request i text s = Ok b s' ->
  forall j d d', lookup j (s_heap s) = Some d -> lookup j (s_heap s') = Some d' ->
  (cl_cap_pending d' = cl_cap_pending d /\ cl_cap_multi d' = cl_cap_multi d) \/ (j = h /\ exists args, says text "CAP" args /\ cap_effect args d d').
Proof.
  intros s i h c text b s' L C H j d d' J J'. rewrite lookup_assoc in J, J'. pose proof (live_wf _ L) as W. pose proof (wf_lt _ _ _ W J) as LT.
  assert (F : also wf (byH ckeep s) s s' -> ckeep d d'). { intro F. destruct (F W) as [_ F1]. destruct (F1 byH_refl) as (_ & _ & F2). destruct (F2 j d') as (d0 & A0 & G); auto. rewrite J in A0. injection A0 as <-. exact G. }
  destruct (line_cases _ _ _ _ _ _ _ C H) as [A|[[Q (req & HN)]|(cmd & req & s1 & R)]].
  - left. apply F. eapply answered_X; [exact _..|exact A].
  - left. apply F. eapply (Handle_Numeric_relp (X := also wf (byH ckeep s))); [|exact HN]. destruct C as [_ C]. rewrite lookup_assoc in C. exists c. auto.
  - destruct (cr_prep _ _ _ _ _ _ _ _ _ _ R) as (s2 & W2 & E2). pose proof (prepared_X (also wf (byH ckeep s)) _ _ _ _ _ (cr_prep _ _ _ _ _ _ _ _ _ _ R)) as P.
    destruct (existsb (String.eqb (cm_name cmd)) ["CAP"]%string) eqn:E.
    2: { left. apply F. transitivity s1; auto. eapply (others_use _ _ cmd); [apply others_ckeep; auto|apply R|exact E|apply R|apply R]. }
    cbn [existsb] in E. rewrite orb_false_r in E. apply String.eqb_eq in E. pose proof C as [_ C2]. rewrite lookup_assoc in C2. destruct (wr_cli _ _ _ _ W2 C2) as (x & C3). assert (C4 : assoc h (s_heap s1) = Some (set_cl_cloaked x c)) by (subst s1; exact C3).
    pose proof (cr_run _ _ _ _ _ _ _ _ _ _ R) as RUN. pose proof (cr_in _ _ _ _ _ _ _ _ _ _ R) as CIN. pose proof (cr_min _ _ _ _ _ _ _ _ _ _ R) as MI. pose proof (cr_max _ _ _ _ _ _ _ _ _ _ R) as MA.
    rewrite (cmd_of "CAP" IRC_CAP US_ANY 1 (Some 2) 0 ltac:(in_cmds) _ CIN E) in RUN, MI, MA. cbn [cm_fun cm_min cm_max] in RUN, MI, MA. specialize (MA 2 eq_refl).
    destruct (P W) as [W1 P1]. destruct (P1 byH_refl) as (_ & NX & P2). destruct (CAP_result _ _ _ _ _ _ W1 C4 (conj MI MA) RUN j d') as (d1 & D1 & D2 & D3); auto; [lia|].
    destruct (P2 j d1 LT D1) as (d0 & D4 & D5). rewrite J in D4. injection D4 as <-. destruct (Nat.eq_dec j h) as [-> |NE]; [right|left; destruct (D2 NE), D5; split; congruence].
    split; auto. exists (rq_args req). split. { destruct (cr_parse _ _ _ _ _ _ _ _ _ _ R) as (p & PL). exists p, (rq_command req). pose proof (cr_name _ _ _ _ _ _ _ _ _ _ R) as NM. rewrite E in NM. auto. }
    rewrite C2 in J. injection J as <-. rewrite C4 in D1. injection D1 as <-. eapply effect_cloak. exact (D3 eq_refl).
Qed.

(** ---- an event: a pending negotiation ends with CAP END ---- *)
Lemma settled_cap_dec : forall s h, {settled_cap s h} + {~ settled_cap s h}.
Proof. intros s h. unfold settled_cap. destruct (lookup h (s_heap s)) as [c|]; [|right; intros (x & E & _); discriminate]. destruct (cl_cap_pending c) eqn:T; [right; intros (x & E & K); injection E as <-; congruence|left; eauto]. Qed.
Lemma ck_settled : forall s s' h, byH ckeep s s' -> ~ (s_next s <= h \/ settled_cap s h) -> ~ (s_next s' <= h \/ settled_cap s' h).
Proof.
  intros s s' h (_ & N & F) H [K|(c & K1 & K2)].
  - apply H. left. lia.
  - rewrite lookup_assoc in K1. destruct (F h c) as (c0 & A0 & [E _]); auto. { destruct (le_lt_dec (s_next s) h); [exfalso; auto|auto]. } apply H. right. exists c0. rewrite lookup_assoc. split; congruence.
Qed.
Theorem cap_event : forall e s s' h, live s -> undisturbed s' -> step e s = Ok tt s' -> negotiating s h -> settled_cap s' h ->
  exists i c text b s1 s2 w, live s1 /\ actions s s1 /\ client_of s1 i h c /\ Parse_Request i text s1 = Ok b s2 /\ actions s2 s' /\
    says text "CAP" [w] /\ same_name w (B "END") /\ cl_type c <> T_USER /\ negotiating s1 h.
Proof.
  intros e s s' h L U H (d & K & KP) Y. assert (Lt : h < s_next s). { rewrite lookup_assoc in K. eapply wf_lt; eauto. apply live_wf; auto. }
  destruct (by_a_line (fun s => s_next s <= h \/ settled_cap s h)) with (e := e) (s := s) (s' := s') as (i & h' & c & text & b & s1 & s2 & L1 & U1 & A1 & C & P & A2 & N1 & Y1); auto.
  - intro x. destruct (le_dec (s_next x) h); [left; auto|]. destruct (settled_cap_dec x h); [left; auto|right; intros [|]; auto].
  - intros x x' Lx Cx Nx. eapply ck_settled; [|exact Nx]. assert (F : also wf (byH ckeep x) x x') by (apply chore_rel; exact Cx). destruct (F (live_wf _ Lx)) as [_ F1]. exact (F1 byH_refl).
  - intros ev x x' Lx Sx Cx Nx. eapply ck_settled; [|exact Nx]. assert (F : also wf (byH ckeep x) x x') by (revert Cx; apply step_rel_silent; exact Sx). destruct (F (live_wf _ Lx)) as [_ F1]. exact (F1 byH_refl).
  - intros [Q|(x & Q1 & Q2)]; [lia|]. rewrite K in Q1. injection Q1 as <-. congruence.
  - assert (F4 : also wf (byH (fun _ _ => True) s1) s1 s2) by (apply action_rel; eapply A_line; eauto). destruct (F4 (live_wf _ L1)) as [_ F5]. destruct (F5 byH_refl) as (_ & F6 & F7).
    destruct Y1 as [Y1|(d' & J' & T')]; [exfalso; apply N1; left; lia|]. pose proof J' as J2. rewrite lookup_assoc in J'. destruct (F7 h d') as (d0 & A0 & _); auto. { destruct (le_lt_dec (s_next s1) h); [exfalso; auto|auto]. }
    assert (PD : cl_cap_pending d0 = true). { destruct (cl_cap_pending d0) eqn:E; auto. exfalso. apply N1. right. exists d0. rewrite lookup_assoc. auto. }
    assert (A0' : lookup h (s_heap s1) = Some d0) by (rewrite lookup_assoc; exact A0).
    destruct (cap_line s1 i h' c text b s2 L1 C P h d0 d' A0' J2) as [[E _]|(-> & args & S & E)]; [congruence|]. pose proof C as [_ C2]. rewrite A0' in C2. injection C2 as ->.
    assert (NG : negotiating s1 h') by (exists c; auto).
    destruct E as [w E1 E2 E3 E4|w E1 E2 E3 E4 E5|w r E1 E2 E3 E4 E5|w a E1 E2 E3 E4 E5 E6|E1 E2 E3]; try congruence; try (exfalso; destruct (ctype_eqb (cl_type c) T_USER) eqn:TU; [apply ctype_eqb_eq in TU; rewrite (E4 TU) in T' || rewrite (E3 TU) in T'; congruence|]; assert (TN : cl_type c <> T_USER) by (intro Q; rewrite Q in TU; discriminate TU); rewrite (E5 TN) in T' || rewrite (E4 TN) in T'; congruence).
    subst args. exists i, c, text, b, s1, s2, w. do 7 (split; [assumption|]). split; auto. intro TU. rewrite (E4 TU) in T'. congruence.
Qed.

(** ---- the reply to CAP REQ ---- *)
Lemma heap_set : forall h f c s, assoc h (s_heap s) = Some c -> assoc h (s_heap (set_cli h f s)) = Some (f c).
Proof. intros. unfold set_cli. cbn [s_heap set_s_heap]. rewrite assoc_aupd, Nat.eqb_refl, H. reflexivity. Qed.
Lemma heap_other : forall h f j s, h <> j -> assoc j (s_heap (set_cli h f s)) = assoc j (s_heap s).
Proof. intros. unfold set_cli. cbn [s_heap set_s_heap]. rewrite assoc_aupd. destruct (Nat.eqb_spec h j); [contradiction|reflexivity]. Qed.
Lemma set_cli_id : forall h s, set_cli h (fun x => x) s = s.
Proof. intros h s. unfold set_cli. replace (aupd h (fun x : client => x) (s_heap s)) with (s_heap s); [destruct s; reflexivity|]. unfold aupd. rewrite <- (map_id (s_heap s)) at 1. apply map_ext. intros [k c]. cbn. destruct (Nat.eqb _ _); reflexivity. Qed.
Lemma orel_cap : forall h f s, (forall c, ctree c (f c)) -> forall x, orel ctree (assoc x (s_heap s)) (assoc x (s_heap (set_cli h f s))).
Proof.
  intros h f s K x. destruct (Nat.eq_dec h x) as [-> |N].
  - destruct (assoc x (s_heap s)) as [c|] eqn:E; [rewrite (heap_set _ f _ _ E); exact (K c)|]. unfold set_cli. cbn [s_heap set_s_heap]. rewrite assoc_aupd, Nat.eqb_refl, E. exact I.
  - rewrite heap_other by exact N. destruct (assoc x (s_heap s)) as [c|]; [|exact I]. repeat split; auto.
Qed.
Lemma fmt_ack : forall x a, fmt (B "CAP %s ACK :%s") [FS x; FS a] = B "CAP " ++ x ++ B " ACK :" ++ a.
Proof. intros. change (B "CAP " ++ x ++ B " ACK :" ++ (a ++ []) = B "CAP " ++ x ++ B " ACK :" ++ a). rewrite app_nil_r. reflexivity. Qed.
Lemma fmt_nak : forall x a, fmt (B "CAP %s NAK :%s") [FS x; FS a] = B "CAP " ++ x ++ B " NAK :" ++ a.
Proof. intros. change (B "CAP " ++ x ++ B " NAK :" ++ (a ++ []) = B "CAP " ++ x ++ B " NAK :" ++ a). rewrite app_nil_r. reflexivity. Qed.
Theorem cap_req : forall s i h c w a text b s' me, live s -> undisturbed s -> client_of s i h c -> cl_type c <> T_SERVER -> lookup This_Server (s_heap s) = Some me -> ~ In "x"%char (cl_modes me) ->
  orders s text "CAP" [w; a] -> same_name w (B "REQ") -> Parse_Request i text s = Ok b s' -> is_open s i = true ->
  exists c', lookup h (s_heap s') = Some c' /\
    let reply (verb : string) := on_wire (":"%char :: cl_id me ++ B " CAP " ++ id_of c ++ B verb ++ a) in
    (Forall known_cap (words (firstn 512 a)) -> wanted (cl_cap_multi c) (words (firstn 512 a)) (cl_cap_multi c') /\ forall j, written s s' j (if (i =? j)%nat then [reply " ACK :"%string] else [])) /\
    (~ Forall known_cap (words (firstn 512 a)) -> cl_cap_multi c' = cl_cap_multi c /\ forall j, written s s' j (if (i =? j)%nat then [reply " NAK :"%string] else [])).
Proof.
  intros s i h c w a text b s' me L U C NS AM NX O E H OP. pose proof (live_itree _ L U) as T. pose proof C as [(cn & C0 & C1) C2]. rewrite lookup_assoc in C0, C2, AM.
  assert (NM : h <> This_Server). { intros ->. rewrite AM in C2. injection C2 as <-. destruct (tr_me _ T) as (m & K1 & K2 & _). congruence. }
  destruct (tr_c2h _ T _ _ C0) as (h' & c' & D1 & D2 & D3). rewrite C1 in D1. injection D1 as <-. rewrite C2 in D2. injection D2 as <-.
  assert (TI : type_in (cl_type c) US_ANY = true) by (destruct (cl_type c); reflexivity).
  destruct (run_ordered _ _ _ _ _ "CAP" _ (mkCommand "CAP" IRC_CAP US_ANY 1 (Some 2) 0) _ _ C NS O ltac:(reflexivity) TI ltac:(cbn; lia) ltac:(cbn; intros m Q; injection Q as <-; lia) H) as (name & s1 & V & OUT & _ & RUN).
  assert (A1 : assoc h (s_heap s1) = Some c) by (rewrite (v_heap _ _ V); exact C2). assert (AM1 : assoc This_Server (s_heap s1) = Some me) by (rewrite (v_heap _ _ V); exact AM).
  pose proof (view_tree _ _ V T) as T1. cbn [cm_fun] in RUN. unfold IRC_CAP in RUN. cbv zeta in RUN. unfold argc, arg in RUN. cbn [rq_args List.length nth Nat.eqb Nat.leb andb] in RUN.
  assert (N3 : caseeq w (B "LS") = false). { destruct (caseeq w (B "LS")) eqn:Q; auto. exfalso. apply same_iff in Q. unfold same_name in *. rewrite E in Q. discriminate Q. }
  assert (N4 : caseeq w (B "LIST") = false). { destruct (caseeq w (B "LIST")) eqn:Q; auto. exfalso. apply same_iff in Q. unfold same_name in *. rewrite E in Q. discriminate Q. }
  rewrite N3, N4, (proj2 (same_iff w "REQ") E) in RUN. unfold Handle_CAP_REQ in RUN. bd RUN as u s2 H1.
  (* the state in which the words are looked at *)
  assert (G : exists f, s2 = set_cli h f s1 /\ (forall x, ctree x (f x)) /\ cl_cap_multi (f c) = cl_cap_multi c /\ cl_id (f c) = cl_id c /\ cl_conn (f c) = Some i /\ cl_type (f c) = cl_type c).
  { unfold Set_CAP_Negotiation in H1. bd H1 as t s3 H2. apply is_type_ok in H2. destruct H2 as (-> & c1 & B1 & ->). destruct (negb _) in H1; cbn [whenM] in H1.
    - apply upd_cli_ok in H1. destruct H1 as (c2 & B2 & ->). exists (set_cl_cap_pending true). split; [reflexivity|]. split; [intro; repeat split; auto|]. auto.
    - apply ret_ok in H1. destruct H1 as [_ ->]. exists (fun x => x). split; [symmetry; apply set_cli_id|]. split; [intro; repeat split; auto|]. auto. }
  destruct G as (f & -> & FT & F1 & F2 & F3 & F4). clear H1. bd RUN as c1 s3 H1. apply cli_ok in H1. destruct H1 as [H1 ->]. rewrite (heap_set _ _ _ _ A1) in H1. injection H1 as <-. rewrite firstn_strlcpy, F1 in RUN. fold (words (firstn 512 a)) in RUN.
  (* the reply in a state that differs in the client only *)
  assert (REP : forall g verb sx, set_cli h g s1 = sx -> (forall x, ctree x (g x)) -> cl_id (g c) = cl_id c -> cl_conn (g c) = Some i -> cl_type (g c) = cl_type c -> (verb = "CAP %s ACK :%s" \/ verb = "CAP %s NAK :%s")%string -> IRC_WriteStrClient h verb [aID h; aS a] sx = Ok b s' ->
    lookup h (s_heap s') = Some (g c) /\ forall j, written s s' j (if (i =? j)%nat then [on_wire (":"%char :: cl_id me ++ " "%char :: fmt (B verb) [FS (id_of c); FS a])] else [])).
  { intros g verb sx <- GT G1 G2 G3 VB R. assert (T2 : tree (set_cli h g s1)). { eapply tree_cli; [apply aupd_keys|reflexivity|apply orel_cap; exact GT|split; [reflexivity| |reflexivity]; intro k; change (s_conns (set_cli h g s1)) with (s_conns s1); destruct (assoc k (s_conns s1)); [apply co_key_refl|exact I]|exact T1]. }
    assert (MS : exists sx, mseq [aID h; aS a] (set_cli h g s1) = Ok [FS (id_of c); FS a] sx /\ sx = set_cli h g s1).
    { unfold IRC_WriteStrClient in R. destruct (WriteStrClientPrefix_ok _ _ _ _ _ _ _ R) as (v2 & sy & _ & _ & _ & _ & _ & M1 & _). exists sy. pose proof M1 as M0. apply mseq_cons_ok in M1. destruct M1 as (x & sz & t & M1 & M2 & ->). apply aID_ok in M1. destruct M1 as [-> (c3 & B3 & ->)].
      rewrite (heap_set _ _ _ _ A1) in B3. injection B3 as <-. apply mseq_cons_ok in M2. destruct M2 as (x & sz & t2 & M1 & M2 & ->). apply aS_ok in M1. destruct M1 as [-> ->]. apply mseq_nil_ok in M2. destruct M2 as [-> ->]. unfold id_of in *. rewrite G1 in M0. auto. }
    destruct MS as (sx & MS & ->). assert (NX2 : assoc This_Server (s_heap (set_cli h g s1)) = Some me) by (rewrite heap_other by congruence; exact AM1).
    pose proof (reply_local _ _ _ _ _ _ _ _ _ _ T2 (heap_set _ g _ _ A1) G2 ltac:(rewrite G3; exact NS) NX2 NX MS R) as [V2 _ O1 O2]. split; [rewrite lookup_assoc, (v_heap _ _ V2); apply heap_set; exact A1|].
    assert (OB : b = true). { rewrite O1. change (is_open s1 i = true). rewrite (view_open _ _ _ V). exact OP. } rewrite OB in O2. rewrite <- wire_on. apply written_one. rewrite O2. f_equal. exact OUT. }
  destruct (parse_cap_spec (words (firstn 512 a)) (cl_cap_multi c)) as [P1 P2]. destruct (parse_cap _ _) as [m|] eqn:PC in RUN.
  - bd RUN as u2 s3 H2. apply upd_cli_ok in H2. destruct H2 as (c2 & _ & ->). match type of RUN with IRC_WriteStrClient _ _ _ ?x = _ => change x with (set_cli h (set_cl_cap_multi m) (set_cli h f s1)) in RUN end. rewrite set_cli_cli in RUN.
    destruct (fun a1 a2 a3 a4 a5 => REP (fun x => set_cl_cap_multi m (f x)) "CAP %s ACK :%s"%string _ eq_refl a1 a2 a3 a4 a5 RUN) as [R1 R2]; auto. rewrite fmt_ack in R2. exists (set_cl_cap_multi m (f c)). split; auto. split.
    + intro F. destruct (P1 F) as (m2 & Q1 & Q2). rewrite PC in Q1. injection Q1 as <-. split; [exact Q2|]. exact R2.
    + intro F. rewrite (P2 F) in PC. discriminate PC.
  - destruct (fun a1 a2 a3 a4 a5 => REP f "CAP %s NAK :%s"%string _ eq_refl a1 a2 a3 a4 a5 RUN) as [R1 R2]; auto. rewrite fmt_nak in R2. exists (f c). split; auto. split.
    + intro F. destruct (P1 F) as (m2 & Q1 & _). rewrite PC in Q1. discriminate Q1.
    + intro F. split; [exact F1|]. exact R2.
Qed.
