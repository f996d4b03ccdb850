(** What is told when a user is killed (C28). *)
From Coq Require Import List Ascii String ZArith NArith Bool Lia Arith.
From Coq Require Import Relations RelationClasses.
From Verif Require Import Bytes Strl Match Lists ListsProofs Hash ParseReq State Messages Monad Core Write Info Chan Mode Msg Login Oper Server Dispatch Conn.
From Verif Require Import Rel RelWrite RelInfo RelBase RelChan RelSrv RelInit RelKey RelCmd RelComp WF RelGone Frame Tree Inv1 Inv2 Inv3 Inv4 Live Spec Observ Unch HandOper HandPrefix HandLine Frames Attrib HandGain HandUser HandChan HandJoin HandKick Output HandDo HandSend SpecMore SpecLink HandCast SpecNick HandNick SpecSync HandSync SpecJoin HandJoined SpecMode SpecInvite HandInvited HandTell SpecUmode HandUmode SpecKill.
Import ListNotations.
Local Open Scope m_scope.

Lemma prints_Mask : forall h c l s vals, assoc h (s_heap s) = Some c -> prints l s vals -> exists x, prints (aMask h :: l) s (FS x :: vals).
Proof.
  intros h c l s vals A P. eexists. intros v s' M. apply mseq_cons_ok in M. destruct M as (a & s1 & v2 & M1 & M & ->). unfold aMask in M1. bd M1 as mk s2 M2. apply ret_ok in M1. destruct M1 as [-> ->].
  unfold Client_Mask in M2. bd M2 as c1 s3 H3. apply cli_ok in H3. destruct H3 as [H3 ->]. rewrite A in H3. injection H3 as <-. apply ret_ok in M2. destruct M2 as [-> ->]. destruct (P _ _ M) as [-> ->]. split; reflexivity.
Qed.
(** marked connections only *)
Lemma send_quiet : forall pref f t l s u s', assoc pref (s_heap s) = Some f -> settled f ->
  mfor l (fun i => c <- con i ;;
    if Nat.eqb (co_flag c) SEND_TO_SERVER then Conn_WriteStr i ":%s %s" [aID pref; aS (firstn 999 (cut0 t))] ;;; ret tt
    else if Nat.eqb (co_flag c) SEND_TO_USER then Conn_WriteStr i ":%s %s" [aMaskC pref; aS (firstn 999 (cut0 t))] ;;; ret tt else ret tt) s = Ok u s' ->
  view s s' /\ forall j, flag_of s j = 0 -> written s s' j [].
Proof.
  induction l as [|i l IH]; intros s u s' A S H; cbn [mfor] in H.
  - apply ret_ok in H. destruct H as [_ ->]. split; [reflexivity|]. intros. apply written_nil. reflexivity.
  - bd H as u1 s1 H1.
    assert (G : view s s1 /\ (forall j, flag_of s1 j = flag_of s j) /\ forall j, flag_of s j = 0 -> written s s1 j []).
    { bd H1 as c s2 H2. apply con_ok in H2. destruct H2 as [-> AC].
      assert (FL : co_flag c = flag_of s i \/ flag_of s i = 0). { unfold flag_of. destruct AC as [-> |[-> _]]; auto. }
      assert (W : forall (f0 : string) a b s3, (forall v s4, a s = Ok v s4 -> s4 = s) -> Conn_WriteStr i f0 [a; aS (firstn 999 (cut0 t))] s = Ok b s3 -> view s s3 /\ (forall j, flag_of s3 j = flag_of s j) /\ (co_flag c <> 0 -> forall j, flag_of s j = 0 -> written s s3 j [])).
      { intros f0 a b s3 PA H2. destruct (Conn_WriteStr_ok _ _ _ _ _ _ H2) as (vals & s4 & M & [W1 W2 W3 W4]). apply mseq_cons_ok in M. destruct M as (v & s5 & v2 & M1 & M & ->). apply PA in M1. subst s5. apply mseq_cons_ok in M. destruct M as (v1 & s5 & v3 & M1 & M & ->). apply aS_ok in M1. destruct M1 as [-> ->]. apply mseq_nil_ok in M. destruct M as [-> ->].
        split; auto. split; auto. intros NZ j Z. destruct b; [|apply written_nil; exact W4]. pose proof (written_one _ _ _ _ W4 j) as X. destruct (Nat.eqb_spec i j) as [<- |]; [|exact X].
        exfalso. unfold flag_of in Z. destruct AC as [AC|[AC _]]; [rewrite AC in Z; congruence|]. unfold is_open in W3. rewrite AC in W3. discriminate W3. }
      destruct (Nat.eqb_spec (co_flag c) SEND_TO_SERVER) as [E|_].
      - bd H1 as b s2 H2. apply ret_ok in H1. destruct H1 as [_ ->]. apply W in H2; [|intros v s4 X; apply aID_ok in X; tauto]. destruct H2 as (V & F & K). split; auto. split; auto. apply K. rewrite E. discriminate.
      - destruct (Nat.eqb_spec (co_flag c) SEND_TO_USER) as [E|_]; [|apply ret_ok in H1; destruct H1 as [_ ->]; split; [reflexivity|split; auto; intros; apply written_nil; reflexivity]].
        bd H1 as b s2 H2. apply ret_ok in H1. destruct H1 as [_ ->]. apply W in H2; [|intros v s4 X; unfold aMaskC in X; bd X as mk s5 M2; apply ret_ok in X; destruct X as [_ ->]; destruct (Mask_settled _ _ _ _ _ A S M2) as [-> _]; reflexivity]. destruct H2 as (V & F & K). split; auto. split; auto. apply K. rewrite E. discriminate. }
    destruct G as (V & FL & O). destruct (IH s1 u s') as [V2 O2]; auto; [rewrite (v_heap _ _ V); exact A|]. split; [transitivity s1; auto|].
    intros j Z. change (@nil bytes) with (@nil bytes ++ []). eapply written_app; [apply O; exact Z|apply O2; rewrite FL; exact Z].
Qed.
Lemma chan_quiet : forall from ch pref r f l vals s u s' p, tree s -> assoc pref (s_heap s) = Some p -> settled p -> prints l s vals -> IRC_WriteStrChannelPrefix from ch pref r f l s = Ok u s' ->
  view s s' /\ forall j, (forall m c, is_on s m ch -> ~ marks s from r m j c) -> written s s' j [].
Proof.
  intros from ch pref r f l vals s u s' p T A S M H. unfold IRC_WriteStrChannelPrefix in H. bd H as buf s1 H1. apply vsn_ok in H1. destruct H1 as (v2 & M2 & ->). destruct (M _ _ M2) as [-> ->].
  bd H as u1 s1 H1. apply ClearFlags_ok in H1. destruct H1 as (V1 & O1 & F1). bd H as u2 s2 H2. unfold Mark_Members in H2. bd H2 as ms s3 H3. unfold Members in H3. rdgets H3.
  destruct (mark_list _ _ _ _ _ _ (view_tree _ _ V1 T) H2) as (V2 & O2 & F2). rewrite (v_members _ _ V1) in *. assert (V12 : view s s2) by (transitivity s1; auto).
  unfold Send_Marked_Connections in H. bd H as cs s3 H3. unfold Conn_All in H3. rdgets H3.
  eapply send_quiet in H; [|rewrite (v_heap _ _ V12); exact A|exact S]. destruct H as [V3 W]. split; [transitivity s2; auto|]. intros j NM. assert (O12 : s_out s2 = s_out s) by congruence. apply (written_from _ _ _ _ _ O12). apply W.
  destruct (F2 j) as [[F3 F4]|(m' & c' & I' & K' & F3)]; [rewrite F3; apply F1|]. exfalso. apply (NM m' c'); [apply member_on; exact I'|]. apply (view_marks _ _ _ _ _ _ _ V1). exact K'.
Qed.
Lemma snotice_quiet : forall f args vals s u s', tree s -> keyed s -> server_settled s -> prints args s vals -> Log_snotice f args s = Ok u s' ->
  view s s' /\ forall j, ~ warned s j -> written s s' j [].
Proof.
  intros f args vals s u s' T KY SS P H. unfold Log_snotice in H. bd H as msg s1 H1. apply vsn_ok in H1. destruct H1 as (v2 & M & _). destruct (P _ _ M) as [_ ->]. bd H as u1 s1 H1.
  eapply notice_quiet in H1; [|apply tree_tied; exact T|exact SS|apply prints_S, prints_nil]. destruct H1 as [V1 W1].
  assert (G : view s1 s' /\ forall j, ~ warned s j -> written s1 s' j []).
  { unfold Channel_LogServer in H. bd H as o s2 H2. unfold Channel_Search in H2. rdgets H2. destruct (find _ _) as [[ch k]|] eqn:FD; cbn [option_map fst] in H; [|apply ret_ok in H; destruct H as [_ ->]; split; [reflexivity|intros; apply written_nil; reflexivity]].
    apply find_some in FD. destruct FD as [FI FN]. cbn [snd] in FN. rewrite (v_chans _ _ V1) in FI. bd H as b0 s3 H3. apply ret_ok in H. destruct H as [_ ->]. unfold Channel_Write in H3. bd H3 as ok s4 H4. unfold Can_Send_To_Channel in H4. unfold heq in H4 at 1. rewrite Nat.eqb_refl in H4. apply ret_ok in H4. destruct H4 as [-> ->]. cbn [negb] in H3.
    pose proof (view_tree _ _ V1 T) as T1. destruct (tr_me _ T1) as (me & AM & MT & MC & _). bd H3 as oc s4 H4. apply Client_Conn_ok in H4. destruct H4 as (-> & c1 & A1 & ->). rewrite AM in A1. injection A1 as <-. rewrite MC in H3. cbn [opt] in H3. bd H3 as u2 s4 H4. apply ret_ok in H4. destruct H4 as [_ ->]. bd H3 as u3 s4 H4. apply ret_ok in H3. destruct H3 as [_ ->].
    apply In_assoc in FI; [|apply (ky_chans _ KY)]. assert (AK : assoc ch (s_chans s1) = Some k) by (rewrite (v_chans _ _ V1); exact FI).
    eapply chan_quiet in H4; [|exact T1|exact AM|apply SS; rewrite lookup_assoc, <- (v_heap _ _ V1); exact AM|apply prints_S; eapply prints_Chan; [exact AK|]; apply prints_S, prints_nil]. destruct H4 as [V4 W4]. split; auto.
    intros j NW. apply W4. intros m c I (cm & x & K1 & _ & K2 & _ & K4 & K5). apply NW. right. exists ch, k, m, x, c. split; [unfold exists_chan; rewrite lookup_assoc; exact FI|]. split; [unfold chan_is in FN; apply andb_true_iff in FN; apply same_name_iff; tauto|].
    split; [apply (view_is_on _ _ _ _ V1); exact I|]. split; [revert K2; apply view_next; rewrite (v_heap _ _ V1); reflexivity|]. rewrite lookup_assoc, <- (v_heap _ _ V1). auto. }
  destruct G as [V2 W2]. split; [transitivity s1; auto|]. intros j NW. change (@nil bytes) with (@nil bytes ++ []). eapply written_app; [|apply W2; exact NW]. apply W1. intros g x K1 K2 K3. apply NW. left. exists g, x. rewrite lookup_assoc. split; auto. split; auto. apply strchr0_In; auto. discriminate.
Qed.

(** ---- a user behind a server is destroyed without a QUIT ---- *)
Lemma leaves_quiet : forall u txt fwd s w s' d, tied s -> NoDup (map fst (s_conns s)) -> assoc u (s_heap s) = Some d -> cl_conn d = None -> settled d -> fits d -> cl_id d <> [] -> Destroy_UserOrService u txt (Some fwd) false s = Ok w s' ->
  s_heap s' = s_heap s /\
  forall j, is_open s j = true ->
  (forall e, near s u j e -> written s s' j [line_from s d e (quit_text (if cf_moreprivacy (s_conf s) then [] else fwd))]) /\
  ((forall e, ~ near s u j e) -> written s s' j []).
Proof.
  intros u txt fwd s w s' d T KC AU CN S F NI H. unfold Destroy_UserOrService in H. bd H as c s1 H1. apply cli_ok in H1. destruct H1 as [H1 ->]. rewrite AU in H1. injection H1 as <-. rewrite CN in H. unfold whenM in H. bd H as u1 s1 H1. apply ret_ok in H1. destruct H1 as [_ ->].
  bd H as u2 s2 H2. unfold Channel_Quit in H2. bd H2 as mp s3 H3. unfold cf in H3. rdgets H3. cbv zeta in H2. bd H2 as u3 s3 H3.
  eapply related_near in H3; [|exact T|exact KC|exact AU|exact S|exact F|exact NI|apply prints_S, prints_nil]. destruct H3 as [V3 P2]. rewrite fmt_quit in P2.
  bd H2 as cl s4 H4. unfold Chans in H4. rdgets H4. apply removes_quit in H2. destruct H2 as (O2 & E2 & C2 & F2 & L2).
  eapply register_quiet in H; [|rewrite E2, (v_heap _ _ V3); exact AU|exact S]. destruct H as [V4 O4]. split; [rewrite (v_heap _ _ V4), E2, (v_heap _ _ V3); reflexivity|].
  assert (OUT : forall j a, written s s3 j a -> written s s' j a) by (intros j a X; eapply written_to; [exact X|congruence]).
  intros j OP. destruct (P2 j) as [R1 R2]. split; [intros e NE; apply OUT; apply (R1 OP e NE)|intro X; apply OUT, R2; auto].
Qed.
Lemma destroy_quiet : forall u log fwd s w s' d, tied s -> NoDup (map fst (s_conns s)) -> (forall g x, assoc g (s_heap s) = Some x -> In g (s_clients s)) ->
  assoc u (s_heap s) = Some d -> cl_type d = T_USER -> cl_conn d = None -> settled d -> fits d -> cl_id d <> [] -> Client_Destroy u log (Some fwd) false s = Ok w s' ->
  s_heap s' = adel u (s_heap s) /\
  forall j, is_open s j = true ->
  (forall e, near s u j e -> written s s' j [line_from s d e (quit_text (if cf_moreprivacy (s_conf s) then [] else fwd))]) /\
  ((forall e, ~ near s u j e) -> written s s' j []).
Proof.
  intros u log fwd s w s' d T KC LI AU TD CN S F NI H. unfold Client_Destroy in H. bd H as n s1 H1. rdgets H1. cbn [destroy] in H. bd H as c s1 H1. apply cli_ok in H1. destruct H1 as [H1 ->]. rewrite AU in H1. injection H1 as <-. cbv zeta in H. bd H as me s1 H1. apply cli_ok in H1. destruct H1 as [AM ->].
  bd H as l s1 H1. unfold Clients in H1. rdgets H1. rewrite TD in H. change (ctype_eqb T_USER T_SERVER) with false in H. cbv iota in H. bd H as child s1 H1. apply ret_ok in H1. destruct H1 as [-> ->]. cbv iota in H.
  assert (EX : existsb (heq u) (s_clients s) = true) by (apply existsb_exists; exists u; split; [eapply LI; eauto|apply Nat.eqb_refl]). rewrite EX in H. unfold Destroy_Found in H. bd H as u1 s1 H1. apply modify_ok in H1. subst s1.
  bd H as c s1 H1. apply cli_ok in H1. destruct H1 as [H1 ->]. cbn [s_heap set_s_clients] in H1. rewrite AU in H1. injection H1 as <-. rewrite TD in H. bd H as u2 s2 H2.
  eapply leaves_quiet in H2; [|destruct T; split; auto|exact KC|exact AU|exact CN|exact S|exact F|exact NI].
  destruct H2 as (EH & G). cbn [s_heap set_s_clients] in EH. destruct w. apply Free_Client_ok in H. destruct H as (c & _ & ->). split; [cbn [s_heap set_s_heap]; rewrite EH; reflexivity|].
  assert (OUT : forall j a, written (set_s_clients (unlink u (s_clients s)) s) s2 j a -> written s (set_s_heap (adel u (s_heap s2)) (if_odd (heq u This_Server) O_Self s2)) j a).
  { intros j a X. eapply written_to; [exact X|]. unfold if_odd. destruct (heq u This_Server); reflexivity. }
  intros j OP. destruct (G j OP) as (G1 & G2). split; [intros e NE; apply OUT; apply (G1 e NE)|intro X; apply OUT, G2; exact X].
Qed.
(** ---- KILL ---- *)
Lemma warned_view : forall s s1 j, view s s1 -> warned s1 j -> warned s j.
Proof.
  intros s s1 j V [(g & x & K1 & K2)|(ch & k & m & nh & x & K1 & K2 & K3 & K4 & K5 & K6)].
  - left. exists g, x. rewrite (v_heap _ _ V) in K1. auto.
  - right. exists ch, k, m, nh, x. unfold exists_chan in *. rewrite (v_chans _ _ V) in K1. split; auto. split; auto. split; [apply (view_is_on _ _ _ _ V); exact K3|]. split; [revert K4; apply view_next; rewrite (v_heap _ _ V); reflexivity|]. rewrite (v_heap _ _ V) in K5. auto.
Qed.
Lemma nick_legal : forall s i h c, live s -> undisturbed s -> client_of s i h c -> cl_type c = T_USER -> legal_nick (cf_maxnick (s_conf s)) (cl_id c).
Proof.
  intros s i h c L U C TU. pose proof (live_itree _ L U) as TR. assert (A : assoc h (s_heap s) = Some c) by (destruct C as [_ C2]; rewrite lookup_assoc in C2; exact C2).
  assert (CI : cl_conn c = Some i). { destruct C as [(cn & C1 & C3) _]. rewrite lookup_assoc in C1. destruct (tr_c2h _ TR _ _ C1) as (h' & c' & K1 & K2 & K3). rewrite C3 in K1. injection K1 as <-. rewrite A in K2. injection K2 as <-. exact K3. }
  destruct (live_inick _ L U _ _ A) as [Q|[Q|[[Q Q1]|Q]]]; [congruence|rewrite TU in Q; discriminate Q| |apply valid_nick_legal; exact Q]. rewrite TU in Q1. discriminate Q1.
Qed.
Lemma nick_nonempty : forall s i h c, live s -> undisturbed s -> client_of s i h c -> cl_type c = T_USER -> cl_id c <> [].
Proof. intros s i h c L U C TU. apply (nick_legal _ _ _ _ L U C TU). Qed.
Lemma nick_nul : forall s i h c, live s -> undisturbed s -> client_of s i h c -> cl_type c = T_USER -> ~ In NUL (cl_id c).
Proof. intros s i h c L U C TU X. destruct (nick_legal _ _ _ _ L U C TU) as (_ & _ & _ & G). apply G in X. apply memb_In in X. vm_compute in X. discriminate X. Qed.
Theorem kill_told : forall s i h c text name t u d g e b s', live s -> undisturbed s -> client_of s i h c -> acts s h c text "KILL" [name; t] u d -> nick_fits d -> settled d -> server_settled s ->
  (cl_type c = T_USER -> In "o"%char (cl_modes c)) -> the_client s name g e -> cl_type e = T_USER -> cl_conn e = None -> nick_fits e -> settled e -> List.length t < 400 -> ~ In NUL t ->
  Parse_Request i text s = Ok b s' ->
  let r := kill_reason c t in
  lookup g (s_heap s') = None /\
  forall j, is_open s j = true -> ~ warned s j ->
  (forall x, link s j x -> written s s' j (if (i =? j)%nat then [] else [relayed d (kill_text name r)])) /\
  (forall x, near s g j x -> written s s' j [line_from s e x (quit_text (to_users s e (Some r)))]) /\
  ((forall x, ~ link s j x) -> (forall x, ~ near s g j x) -> written s s' j []).
Proof.
  intros s i h c text name t u d g e b s' L U C AC NF S SS OPR TC TE CN NE SE LT NZ H r. destruct (actor _ _ _ _ _ _ _ _ _ L U C AC NF) as (T & KY & NC & AH & CI & AU & TD & F & NU & NX).
  assert (TYc : cl_type c = T_USER \/ cl_type c = T_SERVER) by (destruct AC as [(X & _)|(X & _)]; auto).
  eapply run_as in H; [|exact L|exact C|exact AC|exact NF|reflexivity|destruct TYc as [-> | ->]; reflexivity|cbn; lia|intros m E; cbn in E; first [discriminate E|injection E as <-; cbn; lia]].
  destruct H as (req & s1 & V & O1 & SN & EA & H & Q). change (IRC_KILL h req s1 = Ok b s') in H. pose proof (acts_req _ _ _ _ _ _ _ V Q) as Q1.
  assert (AH1 : assoc h (s_heap s1) = Some c) by (rewrite (v_heap _ _ V); exact AH). assert (AU1 : assoc u (s_heap s1) = Some d) by (rewrite (v_heap _ _ V); exact AU).
  assert (AG : assoc g (s_heap s) = Some e) by (destruct TC as [[_ K] _]; rewrite lookup_assoc in K; exact K). assert (AG1 : assoc g (s_heap s1) = Some e) by (rewrite (v_heap _ _ V); exact AG).
  assert (SS1 : server_settled s1) by (intros me; rewrite (v_heap _ _ V); apply SS).
  assert (A0 : arg req 0 = name) by (unfold arg; rewrite EA; reflexivity). assert (A1 : arg req 1 = t) by (unfold arg; rewrite EA; reflexivity).
  unfold IRC_KILL in H. bd H as ty s2 H1. unfold Client_Type in H1. bd H1 as c1 s3 H2. apply cli_ok in H2. destruct H2 as [H2 ->]. rewrite AH1 in H2. injection H2 as <-. apply ret_ok in H1. destruct H1 as [-> ->].
  bd H as al s2 H1.
  assert (E : s2 = s1 /\ al = true).
  { destruct Q1 as [(TU & PX & -> & ->)|(TS & _)]; [|rewrite TS in H1; change (ctype_eqb T_SERVER T_SERVER) with true in H1; cbv iota in H1; apply ret_ok in H1; tauto].
    rewrite TU in H1. change (ctype_eqb T_USER T_SERVER) with false in H1. cbv iota in H1. bd H1 as o s3 H2. apply ret_ok in H1. destruct H1 as [-> ->].
    unfold Op_Check in H2. bd H2 as srv s4 H3. apply is_type_ok in H3. destruct H3 as (-> & c1 & B1 & ->). rewrite AH1 in B1. injection B1 as <-. rewrite TU, PX in H2. change (ctype_eqb T_USER T_SERVER) with false in H2. cbn [andb] in H2. bd H2 as o1 s4 H3. apply ret_ok in H3. destruct H3 as [-> ->].
    bd H2 as cs s4 H3. apply is_type_ok in H3. destruct H3 as (-> & _). bd H2 as op s4 H3. apply HasMode_ok in H3. destruct H3 as (-> & c1 & B1 & ->). rewrite AH1 in B1. injection B1 as <-. assert (MO : strchr0 "o" (cl_modes c) = true) by (change (memb "o" (cl_modes c) = true); apply memb_In; auto). rewrite MO in H2. cbn [negb] in H2.
    bd H2 as ic s4 H3. apply Client_Conn_ok in H3. destruct H3 as (-> & c1 & B1 & ->). rewrite AH1 in B1. injection B1 as <-. rewrite CI in H2. cbn [is_some negb andb] in H2. bd H2 as rm s4 H3. unfold cf in H3. rdgets H3. apply ret_ok in H2. destruct H2 as [-> ->]. auto. }
  destruct E as [-> ->]. clear H1. cbn [negb] in H. bd H as o s2 H1.
  assert (E : s2 = s1 /\ match o with Some p => p | None => This_Server end = u). { destruct Q1 as [(_ & EP & -> & _)|(_ & p & EP & _ & SEA)]; rewrite EP in H1; [apply ret_ok in H1; destruct H1 as [-> ->]; auto|]. destruct (SEA _ _ H1) as [-> ->]. auto. }
  destruct E as [-> EU]. clear H1. cbv zeta in H. rewrite EU, A0, A1 in H. clear o EU. bd H as u1 s2 H1.
  (* the notice *)
  assert (W2 : view s1 s2 /\ forall j, ~ warned s1 j -> written s1 s2 j []).
  { unfold whenM in H1. destruct (negb (heq h This_Server)); [|apply ret_ok in H1; destruct H1 as [_ ->]; split; [reflexivity|intros; apply written_nil; reflexivity]].
    destruct (prints_Mask u d _ s1 _ AU1 (prints_S name _ _ _ (prints_S t _ _ _ (prints_nil s1)))) as [mk PM]. eapply snotice_quiet in H1; [exact H1|eapply view_tree; eauto|eapply view_keyed; eauto|exact SS1|exact PM]. }
  clear H1. destruct W2 as [V2 W2]. assert (V02 : view s s2) by (transitivity s1; auto). pose proof (view_tree _ _ V02 T) as T2.
  assert (AH2 : assoc h (s_heap s2) = Some c) by (rewrite (v_heap _ _ V02); exact AH). assert (AU2 : assoc u (s_heap s2) = Some d) by (rewrite (v_heap _ _ V02); exact AU). assert (AG2 : assoc g (s_heap s2) = Some e) by (rewrite (v_heap _ _ V02); exact AG).
  bd H as rs s3 H1.
  assert (E : s3 = s2 /\ rs = r).
  { unfold r, kill_reason. destruct TYc as [TU|TS].
    - rewrite TU in H1. rewrite TU. change (ctype_eqb T_USER T_USER) with true in H1 |- *. cbv iota in H1 |- *. unfold line in H1. apply vsn_ok in H1. destruct H1 as (v & M & ->). destruct (prints_ID h c _ s2 _ AH2 (prints_S t _ _ _ (prints_nil s2)) _ _ M) as [-> ->]. split; auto.
      rewrite (fits_type_id _ (nick_nonempty _ _ _ _ L U C TU)). assert (EF : fmt (B "KILLed by %s: %s") [FS (cl_id c); FS t] = B "KILLed by " ++ cl_id c ++ B ": " ++ t). { change (B "KILLed by " ++ cl_id c ++ B ": " ++ t ++ [] = B "KILLed by " ++ cl_id c ++ B ": " ++ t). rewrite app_nil_r. reflexivity. }
      rewrite EF. rewrite cut0_plain.
      + apply firstn_all2. rewrite !app_length. assert (LN : List.length (cl_id c) < 32). { destruct AC as [(_ & _ & _ & <-)|(X & _)]; [apply NF|congruence]. } change (List.length (B "KILLed by ")) with 10. change (List.length (B ": ")) with 2. unfold COMMAND_LEN. lia.
      + rewrite !in_app_iff. intros [X|[X|[X|X]]]; [cbn in X; repeat (destruct X as [X|X]; [discriminate X|]); exact X|exact (nick_nul _ _ _ _ L U C TU X)|cbn in X; repeat (destruct X as [X|X]; [discriminate X|]); exact X|exact (NZ X)].
    - rewrite TS in H1. rewrite TS. change (ctype_eqb T_SERVER T_USER) with false in H1 |- *. cbv iota in H1 |- *. apply ret_ok in H1. destruct H1 as [-> ->]. split; auto. apply strlcpy_short. unfold COMMAND_LEN. lia. }
  destruct E as [-> ->]. clear H1. clearbody r. unfold IRC_KillClient in H. bd H as cl s3 H1. destruct (search_the _ _ _ _ _ _ (icli_view _ _ V02 (live_icli _ L)) (view_the _ _ _ _ _ V02 TC) (proj1 NE) H1) as [-> ->]. clear H1.
  bd H as ty s3 H1. unfold Client_Type in H1. bd H1 as c1 s4 H2. apply cli_ok in H2. destruct H2 as [H2 ->]. rewrite AG2 in H2. injection H2 as <-. apply ret_ok in H1. destruct H1 as [-> ->]. rewrite TE in H. change (ctype_eqb T_USER T_USER) with true in H. cbn [orb negb andb] in H.
  bd H as u2 s3 H1. eapply to_servers in H1; [|exact T2|rewrite (v_clients _ _ V02); exact NC|exact AU2|apply NF|apply prints_S, prints_S, prints_nil]. destruct H1 as [V3 G].
  bd H as my s4 H1. apply Client_Conn_ok in H1. destruct H1 as (-> & _). bd H as k s4 H1. apply Client_Conn_ok in H1. destruct H1 as (-> & c1 & B1 & ->). assert (AG3 : assoc g (s_heap s3) = Some e) by (rewrite (v_heap _ _ V3); exact AG2). rewrite AG3 in B1. injection B1 as <-. rewrite CN in H.
  assert (V03 : view s s3) by (transitivity s2; auto). pose proof (view_tree _ _ V03 T) as T3.
  bd H as u3 s4 H1. eapply destroy_quiet in H1; [|apply tree_tied; exact T3|rewrite (view_keys _ _ V03); apply (ky_conns _ KY)|intros g0 x; apply (tr_listed _ T3)|exact AG3|exact TE|exact CN|exact SE| |apply NE].
  2: { destruct (live_icli _ L _ _ AG) as [_ _ Z _ _]. destruct Z. constructor; auto. apply NE. }
  destruct H1 as [EH P].
  assert (E : s4 = s'). { destruct my as [k|]; [|apply ret_ok in H; destruct H as [_ ->]; reflexivity]. bd H as oc s5 H1. apply ret_ok in H. destruct H as [_ ->]. unfold Conn_GetClient in H1. bd H1 as cn s6 H2. apply con_ok in H2. destruct H2 as [-> _]. apply ret_ok in H1. destruct H1 as [_ ->]. reflexivity. }
  subst s4. clear H. split; [rewrite EH, lookup_assoc, RelGone.assoc_adel, Nat.eqb_refl; reflexivity|].
  intros j OP NW. assert (NW1 : ~ warned s1 j). { intro X. apply NW. exact (warned_view _ _ _ V X). }
  pose proof (W2 j NW1) as K1. destruct (G j) as [G1 G2]. rewrite (view_open _ _ _ V02) in G1. specialize (G1 OP). destruct (P j) as [P1 P2]; [rewrite (view_open _ _ _ V03); exact OP|].
  assert (LK : forall x, link s2 j x <-> link s j x) by (intro x; unfold link, known; rewrite (v_clients _ _ V02), (v_heap _ _ V02); reflexivity).
  assert (OUT : forall a b0, written s2 s3 j a -> written s3 s' j b0 -> written s s' j (a ++ b0)). { intros a b0 X Y. change (a ++ b0) with ([] ++ (a ++ b0)). apply (written_from _ _ _ _ _ O1). eapply written_app; [exact K1|]. eapply written_app; [exact X|exact Y]. }
  assert (NN : forall x y, link s j x -> ~ near s g j y). { intros x y (g0 & [_ K] & K2 & K3) (g' & ch & _ & _ & _ & K4 & K5 & K6). rewrite lookup_assoc in K, K4. destruct (conn_client _ _ _ _ _ _ T K K4 K3 K5). congruence. }
  assert (NV : forall y, near s3 g j y <-> near s g j y) by (intro y; apply view_near; exact V03).
  assert (EFM : fmt (B "KILL %s :%s") [FS name; FS r] = kill_text name r). { change (B "KILL " ++ name ++ B " :" ++ r ++ [] = kill_text name r). rewrite app_nil_r. reflexivity. }
  rewrite EFM in G1. split; [|split].
  - intros x LJ. pose proof (P2 ltac:(intros y Y; apply NV in Y; exact (NN _ _ LJ Y))) as Y. destruct (Nat.eqb_spec i j) as [<- |N].
    + change (@nil bytes) with (@nil bytes ++ []). apply OUT; auto. apply G2. intros y LY. apply LK in LY. destruct LY as (g0 & [_ K] & K2 & K3). rewrite lookup_assoc in K. destruct (conn_client _ _ _ _ _ _ T K AH K3 CI) as [-> ->]. exists h. auto.
    + match goal with |- written _ _ _ ?x => rewrite <- (app_nil_r x) end. apply OUT; auto. apply (G1 x); [apply LK; exact LJ|]. intros g0 E K. injection E as <-. rewrite AH2 in K. injection K as <-. destruct LJ as (g0 & [_ K] & K2 & K3). congruence.
  - intros x NR. match goal with |- written _ _ _ ?x => change x with ([] ++ x) end. apply OUT.
    + apply G2. intros y LY. apply LK in LY. destruct (NN _ _ LY NR).
    + unfold to_users. rewrite <- (v_conf _ _ V03), <- (view_line _ _ _ _ _ V03). apply P1. apply NV. exact NR.
  - intros X1 X2. change (@nil bytes) with (@nil bytes ++ []). apply OUT; [apply G2; intros y LY; apply LK in LY; destruct (X1 y LY)|apply P2; intros y Y; apply NV in Y; exact (X2 y Y)].
Qed.
