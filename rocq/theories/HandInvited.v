(** Whom an INVITE command tells what (C28, C29, C31). *)
From Coq Require Import List Ascii String ZArith NArith Bool Lia Arith.
From Coq Require Import Relations RelationClasses.
From Verif Require Import Bytes Strl Match Lists ListsProofs Hash ParseReq State Messages Monad Core Write Info Chan Mode Msg Login Oper Server Dispatch Conn.
From Verif Require Import Rel RelWrite RelInfo RelBase RelChan RelSrv RelInit RelKey RelCmd RelComp WF RelGone Frame Tree Inv1 Inv2 Inv3 Inv4 Live Spec Observ Unch HandOper HandPrefix HandLine Frames Attrib HandGain HandUser HandChan HandJoin HandKick Output HandDo HandSend SpecMore SpecLink HandCast SpecNick HandNick SpecSync HandSync SpecJoin HandJoined SpecInvite.
Import ListNotations.
Local Open Scope m_scope.

(** lines were sent to connection [i] only *)
Definition only_to (i : connid) (s s' : state) : Prop := view s s' /\ exists l, s_out s' = l ++ s_out s /\ forall p, In p l -> fst p = i.
Lemma only_to_refl : forall i s, only_to i s s.
Proof. intros i s. split; [reflexivity|]. exists []. split; [reflexivity|intros p []]. Qed.
Lemma only_to_trans : forall i a b c, only_to i a b -> only_to i b c -> only_to i a c.
Proof. intros i a b c [V1 (l1 & E1 & P1)] [V2 (l2 & E2 & P2)]. split; [etransitivity; eauto|]. exists (l2 ++ l1). rewrite E2, E1, app_assoc. split; auto. intros p I. apply in_app_iff in I. destruct I; auto. Qed.
Lemma only_to_written : forall i s s' j, only_to i s s' -> j <> i -> written s s' j [].
Proof.
  intros i s s' j [_ (l & E & P)] NE. exists l. split; auto. replace (filter (fun p => (fst p =? j)%nat) l) with (@nil (connid * bytes)); auto. clear E.
  induction l as [|p l IH]; auto. cbn [filter]. destruct (fst p =? j)%nat eqn:X; [apply Nat.eqb_eq in X; rewrite (P p) in X by (left; auto); congruence|]. unfold connid in *. rewrite X. apply IH. intros q I. apply P. right; auto.
Qed.
(** the connection [i] leads to user [u] *)
Definition toward (s : state) (u : handle) (i : connid) : Prop := exists x v me, next_hop s u x /\ assoc x (s_heap s) = Some v /\ cl_conn v = Some i /\ assoc This_Server (s_heap s) = Some me /\ settled me.
Lemma toward_view : forall s s' u i, view s s' -> toward s u i -> toward s' u i.
Proof. intros s s' u i V (x & v & me & N & A & C & M & S). exists x, v, me. rewrite (v_heap _ _ V). split; auto. eapply view_next; [apply (v_heap _ _ V)|exact N]. Qed.
Lemma reply_only : forall s u i f l vals b s', toward s u i -> prints l s vals -> IRC_WriteStrClient u f l s = Ok b s' -> only_to i s s'.
Proof.
  intros s u i f l vals b s' (x & v & me & N & A & C & AM & S) P H. unfold IRC_WriteStrClient in H. destruct (WriteStrClientPrefix_ok _ _ _ _ _ _ _ H) as (v2 & s1 & nh & c1 & i1 & p & s2 & M1 & N1 & A1 & C1 & G & [W1 W2 W3 W4]).
  destruct (P _ _ M1) as [-> ->]. pose proof (next_hop_fun _ _ _ N1 _ N) as E. subst nh. rewrite A in A1. injection A1 as <-. rewrite C in C1. injection C1 as <-.
  unfold Get_Prefix in G. bd G as t s3 G1. apply is_type_ok in G1. destruct G1 as (-> & c2 & A2 & ->). assert (s2 = s). { destruct (ctype_eqb (cl_type c2) T_SERVER); [apply Client_ID_ok in G; apply G|apply (Mask_settled _ _ _ _ _ AM S G)]. }
  subst s2. split; [exact W1|]. eexists. split; [exact W4|]. intros q I. destruct b; [destruct I as [<- |[]]; reflexivity|destruct I].
Qed.
Lemma error_only : forall s u i f l vals b s', toward s u i -> prints l s vals -> IRC_WriteErrClient u f l s = Ok b s' -> only_to i s s'.
Proof.
  intros s u i f l vals b s' T P H. unfold IRC_WriteErrClient in H. bd H as buf s1 H1. apply vsn_ok in H1. destruct H1 as (v2 & M2 & ->). destruct (P _ _ M2) as [-> ->].
  bd H as u1 s1 H1. destruct (SetPenalty_view _ _ _ _ _ H1) as (V1 & F1 & O1). change (IRC_WriteStrClient u "%s" [aS (firstn 999 (cut0 (fmt (B f) vals)))] s1 = Ok b s') in H.
  eapply only_to_trans; [|eapply reply_only; [eapply toward_view; eauto|apply prints_S, prints_nil|exact H]]. split; [exact V1|]. exists []. split; [exact O1|intros p []].
Qed.
Lemma half_key : forall ch h s b s', keyed s -> orM (Channel_UserHasMode ch h "q") (orM (Channel_UserHasMode ch h "a") (orM (Channel_UserHasMode ch h "o") (Channel_UserHasMode ch h "h"))) s = Ok b s' -> s' = s /\ (b = true <-> half_op s h ch).
Proof.
  intros ch h s b s' W H. unfold half_op. apply orM_ok in H. destruct H as (x & s1 & H1 & H). apply UserHasMode_key in H1; auto. destruct H1 as (-> & _ & P1).
  destruct H as [(-> & -> & ->)|[-> H]]. { split; auto. split; auto. intros _. exists "q"%char. split; [cbn; auto|]. apply P1. auto. }
  apply orM_ok in H. destruct H as (x & s1 & H1 & H). apply UserHasMode_key in H1; auto. destruct H1 as (-> & _ & P2).
  destruct H as [(-> & -> & ->)|[-> H]]. { split; auto. split; auto. intros _. exists "a"%char. split; [cbn; auto|]. apply P2. auto. }
  apply orM_ok in H. destruct H as (x & s1 & H1 & H). apply UserHasMode_key in H1; auto. destruct H1 as (-> & _ & P3).
  destruct H as [(-> & -> & ->)|[-> H]]. { split; auto. split; auto. intros _. exists "o"%char. split; [cbn; auto|]. apply P3. auto. }
  apply UserHasMode_key in H; auto. destruct H as (-> & _ & P4). split; auto. split.
  - intros ->. exists "h"%char. split; [cbn; auto|]. apply P4. auto.
  - intros (x & I & P). cbn in I. destruct I as [<- |[<- |[<- |[<- |[]]]]]; [apply P4; auto|apply P3 in P; discriminate|apply P2 in P; discriminate|apply P1 in P; discriminate].
Qed.
Lemma check_only : forall h0 h g req ch s r s' k c0 d e i, keyed s -> noonce (ch_bans k) -> assoc ch (s_chans s) = Some k -> assoc h0 (s_heap s) = Some c0 -> assoc h (s_heap s) = Some d ->
  assoc g (s_heap s) = Some e -> fits e -> settled e -> toward s h i -> invite_check h0 h g req ch s = Ok r s' ->
  (r = None /\ may_invite s h g ch k /\ seat s s') \/ ((exists b, r = Some b) /\ ~ may_invite s h g ch k /\ only_to i s s').
Proof.
  intros h0 h g req ch s r s' k c0 d e i W NB A A0 AH AG F S TO H. unfold invite_check in H. cbv zeta in H.
  assert (ERR : forall f l vals s2, prints l s vals -> (b <- IRC_WriteErrClient h f l ;; ret (Some b)) s = Ok r s2 -> (exists b, r = Some b) /\ only_to i s s2).
  { intros f l vals s2 P E. bd E as b0 s3 E1. apply ret_ok in E. destruct E as [-> ->]. split; [eauto|]. eapply error_only; eauto. }
  bd H as mem s1 H1. apply IsMemberOf_on in H1. destruct H1 as [-> MM]. destruct mem; cbn [negb] in H.
  2: { right. destruct (ERR _ _ _ _ (prints_ID _ _ _ _ _ A0 (prints_S _ _ _ _ (prints_nil _))) H) as [E1 E2]. split; auto. split; auto. intros (Q & _). apply MM in Q. discriminate. }
  bd H as v s1 H1. apply ChHasMode_ok in H1. destruct H1 as (-> & k1 & A1 & EV). rewrite A in A1. injection A1 as <-. destruct v.
  { right. destruct (ERR _ _ _ _ (prints_ID _ _ _ _ _ AH (prints_Chan _ _ _ _ _ A (prints_nil _))) H) as [E1 E2]. split; auto. split; auto. intros (_ & Q & _). apply Q. apply strchr0_In; [auto|discriminate]. }
  bd H as j s1 H1. apply ChHasMode_ok in H1. destruct H1 as (-> & k1 & A1 & EI). rewrite A in A1. injection A1 as <-.
  bd H as priv s1 H1. assert (PP : s1 = s /\ (priv = true <-> (In "i"%char (ch_modes k) -> half_op s h ch))).
  { destruct j.
    - apply half_key in H1; auto. destruct H1 as [-> P]. split; auto. rewrite P. split; auto. intro Q. apply Q. apply strchr0_In; [auto|discriminate].
    - apply ret_ok in H1. destruct H1 as [-> ->]. split; auto. split; auto. intros _ I. exfalso. apply strchr0_iff in I; [congruence|discriminate]. }
  clear H1. destruct PP as [-> PP]. destruct priv; cbn [negb] in H.
  2: { right. destruct (ERR _ _ _ _ (prints_ID _ _ _ _ _ AH (prints_Chan _ _ _ _ _ A (prints_nil _))) H) as [E1 E2]. split; auto. split; auto. intros (_ & _ & Q & _). apply PP in Q. discriminate. }
  bd H as tm s1 H1. apply IsMemberOf_on in H1. destruct H1 as [-> MT]. destruct tm.
  { right. destruct (ERR _ _ _ _ (prints_ID _ _ _ _ _ AH (prints_S _ _ _ _ (prints_S _ _ _ _ (prints_nil _)))) H) as [E1 E2]. split; auto. split; auto. intros (_ & _ & _ & Q). apply Q. apply MT. auto. }
  left. assert (MI : may_invite s h g ch k). { split; [apply MM; auto|]. split; [intro I; apply strchr0_iff in I; [congruence|discriminate]|]. split; [apply PP; auto|]. intro Q. apply MT in Q. discriminate. }
  bd H as b s1 H1. unfold Check_Bans in H1. bd H1 as r2 s3 H3. apply ret_ok in H1. destruct H1 as [-> ->]. eapply (check_view ch_bans set_ch_bans _ _ _ _ _ k e) in H3; [|destruct k; reflexivity|exact NB|apply W|exact A|exact AG|exact F|exact S].
  destruct H3 as (V & O & _). bd H as u s2 H2. apply ret_ok in H. destruct H as [-> ->]. split; auto. split; auto. pose proof (view_seat _ _ V O) as Q1. transitivity s3; [exact Q1|]. unfold whenM in H2. destruct (j || is_some r2).
  - bd H2 as m s4 H3. assert (AG1 : assoc g (s_heap s3) = Some e) by (rewrite (v_heap _ _ V); exact AG). destruct (Mask_settled _ _ _ _ _ AG1 S H3) as [-> _]. bd H2 as w s5 H4. apply Client_ID_ok in H4. destruct H4 as [-> _].
    unfold Channel_AddInvite in H2. bd H2 as t s6 H5. unfold now in H5. rdgets H5. apply upd_chan_ok in H2. destruct H2 as (k2 & A2 & ->). split; reflexivity.
  - apply ret_ok in H2. destruct H2 as [_ ->]. reflexivity.
Qed.
Lemma fmt_invite : forall x y z, fmt (B "INVITE %s %s%s") [FS x; FS y; FS z] = B "INVITE " ++ x ++ " "%char :: y ++ z.
Proof. intros x y z. change (B "INVITE " ++ x ++ " "%char :: y ++ z ++ [] = B "INVITE " ++ x ++ " "%char :: y ++ z). rewrite app_nil_r. reflexivity. Qed.
Theorem invite_told : forall s i h c text nick name u d g e x v j o b s', live s -> undisturbed s -> server_settled s -> client_of s i h c -> acts s h c text "INVITE" [nick; name] u d -> nick_fits d -> settled d ->
  the_client s nick g e -> nick_fits e -> settled e -> cl_type e = T_USER -> next_hop s g x -> lookup x (s_heap s) = Some v -> cl_conn v = Some j -> means_chan s name o -> Parse_Request i text s = Ok b s' -> i <> j ->
  (invitable s u g e name o -> is_open s j = true -> written s s' j [line_from s d v (invite_text nick name)]) /\ (~ invitable s u g e name o -> written s s' j []) /\
  forall j', j' <> i -> j' <> j -> written s s' j' [].
Proof.
  intros s i h c text nick name u d g e x v j o b s' L U SS C AC NF S TG NG SE TE NH LV CJ MC H NE. destruct (actor _ _ _ _ _ _ _ _ _ L U C AC NF) as (T & KY & NC & AH & CI & AU & TD & F & NU & NX).
  assert (TY : cl_type c = T_USER \/ cl_type c = T_SERVER) by (destruct AC as [(X & _)|(X & _)]; auto).
  eapply run_as in H; [|exact L|exact C|exact AC|exact NF|reflexivity|destruct TY as [-> | ->]; reflexivity|cbn; lia|intros m E; cbn in E; first [discriminate E|injection E as <-; cbn; lia]].
  destruct H as (req & s1 & V & O1 & SN & EA & H & Q). change (IRC_INVITE h req s1 = Ok b s') in H. pose proof (acts_req _ _ _ _ _ _ _ V Q) as Q1.
  assert (AH1 : assoc h (s_heap s1) = Some c) by (rewrite (v_heap _ _ V); exact AH). assert (AU1 : assoc u (s_heap s1) = Some d) by (rewrite (v_heap _ _ V); exact AU).
  unfold IRC_INVITE in H. eapply sender_as in H; [|exact AH1|exact Q1]. cbv beta zeta in H. unfold arg in H. rewrite EA in H. cbn [nth] in H.
  assert (K0 : forall y l, written s1 s' y l -> written s s' y l) by (intros y l W; change l with ([] ++ l); eapply written_app; [apply written_nil; exact O1|exact W]).
  assert (LF : forall y m, line_from s1 d y m = line_from s d y m) by (intros; unfold line_from; rewrite (view_shown _ _ _ V); reflexivity).
  assert (TO : toward s u i). { destruct (tr_me _ T) as (me & M1 & M2 & _). exists h, c, me. split; [exact NX|]. split; [exact AH|]. split; [exact CI|]. split; [exact M1|]. apply SS. rewrite lookup_assoc. exact M1. }
  pose proof (toward_view _ _ _ _ V TO) as TO1.
  assert (AG : assoc g (s_heap s) = Some e) by (destruct TG as [[_ K] _]; rewrite lookup_assoc in K; exact K). assert (AG1 : assoc g (s_heap s1) = Some e) by (rewrite (v_heap _ _ V); exact AG).
  assert (FE : fits e) by (destruct (live_icli _ L _ _ AG) as [_ _ Z _ _]; destruct Z; constructor; auto; apply NG).
  bd H as o1 s2 H1. destruct (search_the _ _ _ _ _ _ (icli_view _ _ V (live_icli _ L)) (view_the _ _ _ _ _ V TG) (proj1 NG) H1) as [-> ->]. clear H1.
  bd H as ok s2 H1. apply is_type_ok in H1. destruct H1 as (-> & e1 & A1 & ->). rewrite AG1 in A1. injection A1 as <-. rewrite TE in H. change (ctype_eqb T_USER T_USER) with true in H. cbv iota in H.
  bd H as tc s2 H1. apply Client_Conn_ok in H1. destruct H1 as (-> & e1 & A1 & ->). rewrite AG1 in A1. injection A1 as <-.
  assert (OUT : forall s2, only_to i s1 s2 -> ~ invitable s u g e name o -> (invitable s u g e name o -> is_open s j = true -> written s s2 j [line_from s d v (invite_text nick name)]) /\ (~ invitable s u g e name o -> written s s2 j []) /\ forall j', j' <> i -> j' <> j -> written s s2 j' []).
  { intros s2 HH NI. assert (K2 : forall y, y <> i -> written s s2 y []) by (intros y Y; change (@nil bytes) with (@nil bytes ++ []); eapply written_app; [apply written_nil; exact O1|eapply only_to_written; eauto]). split; [intro; contradiction|]. split; auto. }
  destruct (Ascii.eqb (hd0 name) "&" && negb (is_some (cl_conn e))) eqn:LO.
  { apply andb_true_iff in LO. destruct LO as [L1 L2]. apply OUT.
    - eapply error_only; [exact TO1|eapply prints_ID; [exact AH1|]; apply prints_S, prints_nil|exact H].
    - intros [X _]. apply local_hd in L1. apply (X L1). destruct (cl_conn e); [discriminate L2|reflexivity]. }
  assert (LOK : local_name name -> cl_conn e <> None). { intros X Y. apply local_hd in X. rewrite X, Y in LO. discriminate LO. }
  bd H as oc s2 H1. assert (SC : s2 = s1 /\ oc = option_map fst o).
  { destruct o as [[ch k]|]; cbn [means_chan option_map fst] in MC |- *; [eapply search_view; eauto|]. unfold Channel_Search, gets in H1. injection H1 as <- <-. split; [reflexivity|]. rewrite (v_chans _ _ V). destruct (find _ (s_chans s)) as [[ch k]|] eqn:E; cbn; auto.
    exfalso. apply find_some in E. destruct E as [I P]. cbn [snd] in P. unfold chan_is in P. apply andb_true_iff in P. destruct P as [_ P]. apply (MC ch k); [unfold exists_chan; rewrite lookup_assoc; apply In_assoc; auto; apply (wf_chans _ (live_wf _ L))|apply same_name_iff; exact P]. }
  destruct SC as [-> ->]. clear H1.
  bd H as r s2 H1.
  assert (CH : (r = None /\ invitable s u g e name o /\ seat s1 s2) \/ ((exists b, r = Some b) /\ ~ invitable s u g e name o /\ only_to i s1 s2)).
  { unfold invitable. destruct o as [[ch k]|]; cbn [means_chan option_map fst] in MC, H1.
    - assert (AK : assoc ch (s_chans s) = Some k) by (destruct MC as [E _]; unfold exists_chan in E; rewrite lookup_assoc in E; exact E).
      assert (MI : may_invite s1 u g ch k <-> may_invite s u g ch k) by (unfold may_invite, half_op, has_priv, is_on; rewrite (v_members _ _ V); reflexivity).
      eapply (check_only h u g _ ch s1 r s2 k c d e i) in H1; [|eapply view_keyed; eauto|apply (kg_once _ _ _ (ic_good _ (live_ichan _ L) _ _ AK))|rewrite (v_chans _ _ V); exact AK|exact AH1|exact AU1|exact AG1|exact FE|exact SE|exact TO1].
      rewrite MI in H1. destruct H1 as [(E1 & E2 & E3)|(E1 & E2 & E3)]; [left; auto|right]. split; auto. split; auto. intros [_ X]. auto.
    - apply ret_ok in H1. destruct H1 as [-> ->]. left. split; auto. split; auto. reflexivity. }
  clear H1. destruct CH as [(-> & IV & SQ)|((b1 & ->) & IV & HH)]; cbv iota in H.
  2: { apply ret_ok in H. destruct H as [_ ->]. auto. }
  cbv zeta in H. bd H as w s4 H1. unfold void in H1. bd H1 as b2 s3 H2. apply ret_ok in H1. destruct H1 as [_ ->].
  eapply prefix_ok in H2; [|rewrite (se_heap _ _ SQ); exact AU1|exact S|exact F|apply NF|apply prints_S, prints_S, prints_S, prints_nil].
  destruct H2 as (x1 & v1 & j1 & N1 & A1 & C1 & V3 & -> & O3). assert (N2 : next_hop s x1 x1 -> True) by auto. clear N2.
  assert (E : x1 = x). { eapply next_hop_fun; [|exact NH]. eapply view_next; [|exact N1]. rewrite (se_heap _ _ SQ). symmetry. apply (v_heap _ _ V). }
  subst x1. rewrite (se_heap _ _ SQ), (v_heap _ _ V) in A1. rewrite lookup_assoc in LV. rewrite LV in A1. injection A1 as <-. rewrite CJ in C1. injection C1 as <-.
  assert (EO : is_open s2 j = is_open s j) by (rewrite (seat_open _ _ _ SQ); apply (view_open _ _ _ V)). rewrite EO in O3.
  assert (EL : line_from s2 d v (fmt (B "INVITE %s %s%s") [FS nick; FS (if memb " " name then B ":" else []); FS name]) = line_from s d v (invite_text nick name)).
  { rewrite fmt_invite. rewrite <- LF. unfold line_from. replace (shown_mask s2 d) with (shown_mask s1 d); [reflexivity|]. unfold shown_mask, shown_host, cloak_name. rewrite (se_heap _ _ SQ), (se_conf _ _ SQ). reflexivity. }
  rewrite EL, (se_out _ _ SQ) in O3.
  assert (HR : only_to i s3 s'). { assert (V13 : s_heap s3 = s_heap s1) by (rewrite (v_heap _ _ V3); apply (se_heap _ _ SQ)).
    assert (TO3 : toward s3 u i). { destruct TO1 as (y & v0 & me & N0 & A0 & C0 & M0 & S0). exists y, v0, me. rewrite V13. split; auto. eapply view_next; [exact V13|exact N0]. }
    assert (AU3 : assoc u (s_heap s3) = Some d) by (rewrite V13; exact AU1). assert (AG3 : assoc g (s_heap s3) = Some e) by (rewrite V13; exact AG1).
    destruct (is_some (cl_conn e)); [|apply ret_ok in H; destruct H as [_ ->]; apply only_to_refl].
    apply and_then_ok in H. destruct H as (b3 & s4 & H1 & H). eapply reply_only in H1; [|exact TO3|eapply prints_ID; [exact AU3|]; apply prints_S, prints_S, prints_S, prints_nil].
    destruct H as [[-> H]|[-> [-> _]]]; [|exact H1]. eapply only_to_trans; [exact H1|]. destruct H1 as [V4 _].
    bd H as e1 s5 H2. apply cli_ok in H2. destruct H2 as [A5 ->]. unfold whenB in H. destruct (memb "a" (cl_modes e1)); [|apply ret_ok in H; destruct H as [_ ->]; apply only_to_refl].
    eapply reply_only; [eapply toward_view; [exact V4|exact TO3]|eapply prints_ID; [rewrite (v_heap _ _ V4); exact AU3|]; eapply prints_ID; [rewrite (v_heap _ _ V4); exact AG3|]; apply prints_S, prints_nil|exact H]. }
  assert (W3 : forall y, written s s3 y (if (y =? j)%nat && is_open s j then [line_from s d v (invite_text nick name)] else [])).
  { intro y. exists (if is_open s j then [(j, line_from s d v (invite_text nick name))] else []). split; [rewrite O3, O1; reflexivity|]. destruct (is_open s j); [|rewrite andb_false_r; reflexivity]. rewrite andb_true_r. cbn [filter fst]. rewrite (Nat.eqb_sym j y). destruct (y =? j)%nat; reflexivity. }
  assert (W4 : forall y l, y <> i -> written s s3 y l -> written s s' y l) by (intros y l Y W; rewrite <- (app_nil_r l); eapply written_app; [exact W|eapply only_to_written; eauto]).
  split; [|split].
  - intros _ OP. apply W4; auto. specialize (W3 j). rewrite Nat.eqb_refl, OP in W3. exact W3.
  - intro; contradiction.
  - intros j' Y1 Y2. apply W4; auto. specialize (W3 j'). replace (j' =? j)%nat with false in W3 by (symmetry; apply Nat.eqb_neq; exact Y2). exact W3.
Qed.
